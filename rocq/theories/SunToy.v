(** A library that satisfies the assumptions of the properties of Sun hybrid certificates, for the examples. It is not a model
    of any code in /repo. *)
From Coq Require Import String.
From Verif Require Import Prelude PreludeFacts ProtToy ProtTab HdrModel ChamProofs ChamToy CatModel CatSpec CatToy SunModel SunSpec.
From Verif Require EnvlToy.
Open Scope string_scope.
Open Scope Z_scope.
Open Scope list_scope.

Definition cd_alt : codec alt :=
  c_map (fun p => {| a_by := fst p; a_val := fst (snd p); a_alg := fst (snd (snd p)); a_hash := fst (snd (snd (snd p))); a_loc := snd (snd (snd (snd p))) |})
        (fun a => (a_by a, (a_val a, (a_alg a, (a_hash a, a_loc a)))))
        (c_pair c_bool (c_pair c_bytes (c_pair cd_alg (c_pair (c_opt cd_alg) (c_opt c_str))))).
Lemma good_alt : good cd_alt.
Proof.
  apply good_map; [now intros []|]. apply good_pair; [good_tac|]. apply good_pair; [good_tac|]. apply good_pair; [apply good_alg|]. apply good_pair; [apply good_opt, good_alg|good_tac].
Qed.
Definition der (k : pub) : bytes := l_spkienc toy (match l_spki toy k with Ok s => s | Err _ => toy_spki 0 0 end).
Definition kind (k : pub) : Z := nth 1 (u_id k) 0.
(** Keys of the kinds 7 and 8 are hybrid, with the hashes "sha256" and "sha512"; [store] is what is at the locations. *)
Definition sun (store : list (string * bytes)) : lib := {|
  l_cat := toy; l_altenc := en cd_alt; l_altdec := de cd_alt; l_der := der;
  l_get := fun x => match lookup x store with Some b => Ok b | None => Err EException end;
  l_hash := fun n d => put (sb n) ++ d;
  l_parts := fun k => if 7 <=? kind k then Some (toy_pub (nth 0 (u_id k) 0) 0, toy_pub (nth 0 (u_id k) 0) 2) else None;
  l_oid := fun k => if kind k =? 7 then "comp:composite-sig-ml-dsa-44-rsa2048" else if kind k =? 8 then "comp:composite-sig-ml-dsa-65-rsa4096" else "";
  l_composite := fun k => 7 <=? kind k;
  l_text := fun b => Ok (bs b);
  l_extensions := fun _ => Ok [usage];
  l_pqverify := fun k => kind k =? 2;
  l_related := fun cs _ => match cs with x :: _ => Ok x | [] => Err EValueError end;
  l_descriptor := fun e => match x_val e with [] => Err EValueError | [9] => Err ETypeError | b => Ok b end;
  l_discover := fun b => Ok (mk_cert 0 (toy_spki (nth 0 b 0) 2) None);
  l_delta := fun c => Ok (toy_spki 4 2)
|}.
Lemma sun_ok st : sun_laws (sun st).
Proof. intros a. exact (EnvlToy.de_en _ _ a good_alt). Qed.
Lemma own st n k : own_encoding (sun st) (toy_pub n k).
Proof. exists (toy_spki n k). split; [exact (cl_spki _ toy_laws (toy_spki n k))|reflexivity]. Qed.
Lemma good256 : good_name "sha256". Proof. split; [discriminate|]. exists "sha256", "id_sha256". repeat split. Qed.
Lemma good512 : good_name "sha512". Proof. split; [discriminate|]. exists "sha512", "id_sha512". repeat split. Qed.
Definition the_pair (r : result (cert * cert)) : cert * cert := match r with Ok p => p | Err _ => (mk_cert 0 (toy_spki 0 0) None, mk_cert 0 (toy_spki 0 0) None) end.
(** What is issued for the hybrid key 3: by the CA key 1 and the alternative key 5. *)
Definition issue (kind : Z) (h : option string) (bad : bool) : result (cert * cert) :=
  issue_template (sun []) (toy_spki 3 kind) [30] (toy_key 1 0) (toy_key 5 2) (Some "key") (Some "sig") h None bad.
Definition c4_of kind h bad := fst (the_pair (issue kind h bad)).
Definition c1_of kind h bad := snd (the_pair (issue kind h bad)).
(** The alternative signature, from the certificate in Form1. *)
Definition sig_of (c : cert) : bytes :=
  match get_extension (exts c) SIG_EXT with Some e => match de cd_alt (x_val e) with Some (a, _) => a_val a | None => [] end | None => [] end.
Definition st kind h bad : list (string * bytes) := [("key", der (toy_pub 3 2)); ("sig", sig_of (c1_of kind h bad))].
Definition sha256c4 : cert := c4_of 7 (Some "sha256") false.
Definition sha256c1 : cert := c1_of 7 (Some "sha256") false.
Definition L0 : lib := sun (st 7 (Some "sha256") false).
Definition issuer_plain : cert := mk_cert 1 (toy_spki 1 0) None.
