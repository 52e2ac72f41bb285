(** A library that satisfies the assumptions of the paired certificate properties, for the examples. It is not a model
    of any code in /repo. *)
From Coq Require Import String Ascii Permutation.
From Verif Require Import Prelude PreludeFacts ProtToy ChamModel ChamSpec ChamProofs.
Open Scope string_scope.
Open Scope Z_scope.
Open Scope list_scope.
Local Notation length := List.length.

(** ** Codecs *)

Record codec (A : Type) := { en : A -> bytes; de : bytes -> option (A * bytes) }.
Arguments en {A}. Arguments de {A}.
Definition good {A} (c : codec A) : Prop := forall a r, de c (en c a ++ r) = Some (a, r).

Definition c_bytes : codec bytes := {| en := put; de := get |}.
Definition c_z : codec Z := {| en := fun z => [z]; de := fun l => match l with [] => None | z :: r => Some (z, r) end |}.
Definition c_map {A B} (f : A -> B) (g : B -> A) (c : codec A) : codec B :=
  {| en := fun b => en c (g b); de := fun l => match de c l with Some (a, r) => Some (f a, r) | None => None end |}.
Definition c_pair {A B} (c : codec A) (d : codec B) : codec (A * B) :=
  {| en := fun p => en c (fst p) ++ en d (snd p);
     de := fun l => match de c l with
                    | Some (a, r) => match de d r with Some (b, r') => Some ((a, b), r') | None => None end
                    | None => None
                    end |}.
Definition c_opt {A} (c : codec A) : codec (option A) :=
  {| en := fun o => match o with None => [0] | Some a => 1 :: en c a end;
     de := fun l => match l with
                    | [] => None
                    | z :: r => if z =? 0 then Some (None, r)
                                else match de c r with Some (a, r') => Some (Some a, r') | None => None end
                    end |}.
Fixpoint de_n {A} (c : codec A) (n : nat) (l : bytes) : option (list A * bytes) :=
  match n with
  | O => Some ([], l)
  | S n' => match de c l with
            | Some (a, r) => match de_n c n' r with Some (x, r') => Some (a :: x, r') | None => None end
            | None => None
            end
  end.
Definition c_list {A} (c : codec A) : codec (list A) :=
  {| en := fun l => Z.of_nat (length l) :: flat_map (en c) l;
     de := fun l => match l with [] => None | n :: r => de_n c (Z.to_nat n) r end |}.

Lemma good_bytes : good c_bytes. Proof. exact get_put. Qed.
Lemma good_z : good c_z. Proof. intros a r. reflexivity. Qed.
Lemma good_map A B (f : A -> B) g c : (forall b, f (g b) = b) -> good c -> good (c_map f g c).
Proof. intros E G b r. cbn. now rewrite G, E. Qed.
Lemma good_pair A B (c : codec A) (d : codec B) : good c -> good d -> good (c_pair c d).
Proof. intros G H [a b] r. cbn. now rewrite <- app_assoc, G, H. Qed.
Lemma good_opt A (c : codec A) : good c -> good (c_opt c).
Proof. intros G [a|] r; cbn; [now rewrite G | reflexivity]. Qed.
Lemma good_list A (c : codec A) : good c -> good (c_list c).
Proof.
  intros G l r. cbn [c_list en de app]. rewrite Nat2Z.id. induction l as [|a l IH]; cbn [length de_n flat_map]; [reflexivity|].
  now rewrite <- app_assoc, G, IH.
Qed.

Definition c_bool : codec bool := c_map (fun z => z =? 1) (fun b : bool => if b then 1 else 0) c_z.
Definition c_str : codec string := c_map bs sb c_bytes.
Lemma good_bool : good c_bool. Proof. apply good_map; [now intros [] | apply good_z]. Qed.
Lemma good_str : good c_str. Proof. apply good_map; [apply bs_sb | apply good_bytes]. Qed.

Definition c_ext : codec ext :=
  c_map (fun p => {| x_id := fst p; x_crit := fst (snd p); x_val := snd (snd p) |})
        (fun e => (x_id e, (x_crit e, x_val e))) (c_pair c_str (c_pair c_bool c_bytes)).
Definition c_alg_id : codec alg :=
  c_map (fun p => {| g_oid := fst p; g_par := snd p |}) (fun a => (g_oid a, g_par a)) (c_pair c_str (c_opt c_bytes)).
Definition c_exts := c_list c_ext.
Definition c_dcd : codec dcd :=
  c_map (fun p => match p with (se, (al, (is, (va, (su, (sp, (xs, sg))))))) =>
           {| d_serial := se; d_alg := al; d_issuer := is; d_validity := va; d_subject := su; d_spki := sp; d_exts := xs; d_sig := sg |} end)
        (fun d => (d_serial d, (d_alg d, (d_issuer d, (d_validity d, (d_subject d, (d_spki d, (d_exts d, d_sig d))))))))
        (c_pair c_z (c_pair (c_opt c_alg_id) (c_pair (c_opt c_bytes) (c_pair (c_opt c_bytes) (c_pair (c_opt c_bytes)
          (c_pair c_bytes (c_pair c_exts c_bytes))))))).
Definition c_req : codec dreq :=
  c_map (fun p => match p with (su, (sp, (xs, al))) => {| q_subject := su; q_spki := sp; q_exts := xs; q_alg := al |} end)
        (fun q => (q_subject q, (q_spki q, (q_exts q, q_alg q))))
        (c_pair (c_opt c_bytes) (c_pair c_bytes (c_pair c_exts (c_opt c_alg_id)))).
Definition c_pub : codec pub :=
  c_map (fun p => match p with (i, (v, r)) => {| p_id := i; p_verify := v; p_rsa := r |} end)
        (fun p => (p_id p, (p_verify p, p_rsa p))) (c_pair c_bytes (c_pair c_bool (c_opt c_z))).

Ltac good_tac := repeat first [ apply good_str | apply good_bool | apply good_bytes | apply good_z | apply good_list
                              | apply good_opt | apply good_pair | (apply good_map; [now intros []|]) ].
Lemma good_ext : good c_ext. Proof. good_tac. Qed.
Lemma good_alg : good c_alg_id. Proof. good_tac. Qed.
Lemma good_exts : good c_exts. Proof. apply good_list, good_ext. Qed.
Lemma good_dcd : good c_dcd.
Proof. apply good_map; [now intros []|]. repeat first [ apply good_alg | apply good_exts | apply good_bytes | apply good_z | apply good_opt | apply good_pair ]. Qed.
Lemma good_req : good c_req.
Proof. apply good_map; [now intros []|]. repeat first [ apply good_alg | apply good_exts | apply good_bytes | apply good_z | apply good_opt | apply good_pair ]. Qed.
Lemma good_pub : good c_pub. Proof. good_tac. Qed.

Definition read {A} (c : codec A) (b : bytes) : result A :=
  match de c b with Some (a, []) => Ok a | _ => Err EPyAsn1 end.
Lemma read_en A (c : codec A) a : good c -> read c (en c a) = Ok a.
Proof. intro G. unfold read. pose proof (G a []) as H. rewrite app_nil_r in H. now rewrite H. Qed.

(** ** The library *)

(** A TBSCertificate as it is signed, and a request whose attributes are counted, by their kind and the length of
    their value. *)
Definition toy_tbs (t : tbs) : bytes :=
  t_version t :: t_serial t :: en c_alg_id (t_alg t) ++ put (t_issuer t) ++ put (t_validity t) ++ put (t_subject t) ++
  put (t_spki t) ++ put (t_uids t) ++ en c_exts (t_exts t).
Fixpoint sum (l : list Z) : Z := match l with [] => 0 | x :: r => x + sum r end.
Definition toy_info (i : info) : bytes :=
  i_version i :: put (i_subject i) ++ put (i_spki i) ++
  [Z.of_nat (length (i_attrs i)); sum (map (fun a => 7 * sum (a_val a) + sum (sb (a_type a))) (i_attrs i))].
(** RSA keys name the hash in their algorithm, with NULL as parameters; the others have one algorithm. *)
Definition toy_alg (k : skey) (h : option string) (pss : bool) : result alg :=
  match p_rsa (s_pub k) with
  | Some _ => Ok {| g_oid := match h with Some x => "rsa-" ++ x | None => "rsa" end; g_par := Some [5; 0] |}
  | None => Ok {| g_oid := match h with Some x => "ecdsa-" ++ x | None => "ecdsa" end; g_par := None |}
  end%string.
Definition toy_hash (o : oid) : result (option string) :=
  if String.eqb o "rsa-sha256" || String.eqb o "ecdsa-sha256" then Ok (Some "sha256")
  else if String.eqb o "rsa-sha512" || String.eqb o "ecdsa-sha512" then Ok (Some "sha512") else Ok None.
Definition toy_verify (p : pub) (a : alg) (d s : bytes) : result unit :=
  guard (bytes_eqb s (p_id p ++ d)) EInvalidSignature.
Definition toy : lib := {|
  l_denc := en c_dcd; l_ddec := de c_dcd;
  l_qenc := en c_req; l_qdec := read c_req;
  l_senc := put; l_sdec := read c_bytes;
  l_xenc := en c_exts; l_xdec := read c_exts;
  l_kenc := put; l_kdec := read c_bytes;
  l_tbs := toy_tbs; l_info := toy_info;
  l_load := read c_pub; l_spki := fun p _ => en c_pub p;
  l_hash := toy_hash; l_alg := toy_alg;
  l_sign := fun k _ _ d => Ok (p_id (s_pub k) ++ d);
  l_verify := toy_verify;
  l_ski := fun p => 20 :: p_id p;
  l_name := fun _ => Ok tt |}.

Lemma sum_perm l l' : Permutation l l' -> sum l = sum l'.
Proof. induction 1; cbn [sum]; lia. Qed.

Lemma toy_ok : cham_ok toy.
Proof.
  constructor; cbn [toy l_denc l_ddec l_qenc l_qdec l_senc l_sdec l_xenc l_xdec l_kenc l_kdec l_load l_spki l_alg l_sign l_verify l_info].
  - intro d. pose proof (good_dcd d []) as H. now rewrite app_nil_r in H.
  - intro q. apply read_en, good_req.
  - intro s. exact (read_en _ c_bytes s good_bytes).
  - intro x. apply read_en, good_exts.
  - intro k. exact (read_en _ c_bytes k good_bytes).
  - intros p b. apply read_en, good_pub.
  - intros k h pss a d s _ H. injection H as <-. unfold toy_verify. now rewrite (proj2 (bytes_eqb_iff _ _) eq_refl).
  - intros i l l' P. unfold toy_info, set_attrs. cbn [i_version i_subject i_spki i_attrs]. do 4 f_equal.
    + now rewrite (Permutation_length P).
    + f_equal. apply sum_perm, Permutation_map, P.
Qed.
