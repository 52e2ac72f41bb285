(** What SLH-DSA computes, with addresses given by their fields and no mutable
    state: FIPS 205 sections 5-8.  [adr] (SlhAdrs.v) is the layout of section 4.2. *)
From Verif Require Export SlhModel SlhAdrs.
Local Open Scope Z_scope.

(** The output lengths of the hash primitives. *)
Record raw_ok (hs : raw) : Prop := {
  ok_sha256 : forall x, length (r_sha256 hs x) = 32%nat;
  ok_sha512 : forall x, length (r_sha512 hs x) = 64%nat;
  ok_shake256 : forall x l, length (r_shake256 hs x l) = l }.

(** What the proofs need of a parameter set; all twelve of Table 2 have it. *)
Definition wfb (p : params) : bool :=
  (1 <=? lg_w p)%nat && (len1 p * lg_w p =? 8 * n p)%nat && (n p <=? 32)%nat &&
  (1 <=? d p)%nat && (h p =? hp p * d p)%nat && (hp p <=? 31)%nat &&
  (Z.of_nat (k p) * 2 ^ Z.of_nat (a p) <=? 2 ^ 32) &&
  (Nat.div (k p * a p + 7) 8 + Nat.div (h p - hp p + 7) 8 + Nat.div (hp p + 7) 8 <=? m p)%nat.

Section Trees.
Variable hs : raw.
Variable p : params.
Variables sk pk : bytes. (* SK.seed and PK.seed *)

(** [steps] applications of F from position [from] of chain [i] of key pair [kp]. *)
Definition chainS (l t kp : Z) (i from steps : nat) (x : bytes) : bytes :=
  fold_left (fun x j => h_f hs p pk (adr l t WOTS_HASH kp (Z.of_nat i) (Z.of_nat j)) x) (seq from steps) x.
Definition wots_skS (l t kp : Z) (i : nat) : bytes := prf hs p pk sk (adr l t WOTS_PRF kp (Z.of_nat i) 0).
(** The WOTS+ public key of key pair [kp]. *)
Definition wots_pkS (l t kp : Z) : bytes :=
  h_t hs p pk (adr l t WOTS_PK kp 0 0)
    (flat_map (fun i => chainS l t kp i 0 (Z.to_nat (w p - 1)) (wots_skS l t kp i)) (seq 0 (len p))).
(** The WOTS+ signature on the digits [v]. *)
Definition wots_sigS (l t kp : Z) (v : list Z) : bytes :=
  flat_map (fun i => chainS l t kp i 0 (Z.to_nat (nthz i v)) (wots_skS l t kp i)) (seq 0 (len p)).

(** Node [i] at height [z] of the XMSS tree [t] of layer [l]. *)
Fixpoint xnode (l t : Z) (z : nat) (i : Z) : bytes :=
  match z with
  | O => wots_pkS l t i
  | S z' => h_h hs p pk (adr l t TREE 0 (Z.of_nat z) i) (xnode l t z' (2 * i) ++ xnode l t z' (2 * i + 1))
  end.
Definition sib (x : Z) : Z := if Z.even x then x + 1 else x - 1.
Definition auth_path (N : nat -> Z -> bytes) (C : Z) (H : nat) : bytes :=
  flat_map (fun j => N j (sib (C / 2 ^ Z.of_nat j))) (seq 0 H).
Definition xmss_sigS (l t idx : Z) (v : list Z) : bytes :=
  wots_sigS l t idx v ++ auth_path (xnode l t) idx (hp p).

(** FORS: the secret values and the nodes of the [k] trees (one forest index space). *)
Definition fors_skS (t kp i : Z) : bytes := prf hs p pk sk (adr 0 t FORS_PRF kp 0 i).
Fixpoint fnode (t kp : Z) (z : nat) (i : Z) : bytes :=
  match z with
  | O => h_f hs p pk (adr 0 t FORS_TREE kp 0 i) (fors_skS t kp i)
  | S z' => h_h hs p pk (adr 0 t FORS_TREE kp (Z.of_nat z) i) (fnode t kp z' (2 * i) ++ fnode t kp z' (2 * i + 1))
  end.
Definition fors_leaf (idxs : list Z) (i : nat) : Z := Z.of_nat i * 2 ^ Z.of_nat (a p) + nthz i idxs.
Definition fors_sigS (t kp : Z) (idxs : list Z) : bytes :=
  flat_map (fun i => fors_skS t kp (fors_leaf idxs i) ++ auth_path (fnode t kp) (fors_leaf idxs i) (a p)) (seq 0 (k p)).
Definition fors_pkS (t kp : Z) : bytes :=
  h_t hs p pk (adr 0 t FORS_ROOTS kp 0 0) (flat_map (fun i => fnode t kp (a p) (Z.of_nat i)) (seq 0 (k p))).

(** The root of the whole hypertree. *)
Definition top_root : bytes := xnode (Z.of_nat (d p) - 1) 0 (hp p) 0.
End Trees.
