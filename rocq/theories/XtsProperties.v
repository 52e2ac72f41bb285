(** Extensions of new certificates, cross-signed certificates and passwords: C162 - C164. *)
From Coq Require Import String.
From Verif Require Import Prelude PreludeFacts PyStr GenModel XtsModel XtsSpec XtsProofs.
Open Scope string_scope.
Open Scope Z_scope.
Open Scope list_scope.
Local Notation length := List.length.

(** ** Libraries for the examples; not a model of any code in /repo *)

Definition mk (id : string) (r : bytes) : ext := {| e_id := id; e_rest := r |}.
(** A request with the byte 1 has a key usage, with 2 an unknown extension, with 3 one that is known and not looked at. *)
Definition in_request (t : bytes) (b : Z) (e : ext) : list ext := if existsb (Z.eqb b) t then [e] else [].
Definition toy : lib :=
  {| l_parse := fun t => Ok (Some (in_request t 1 (mk "id_ce_keyUsage" [7]) ++ in_request t 2 (mk "private" []) ++ in_request t 3 (mk "id_ce_cRLDistributionPoints" [])));
     l_known := fun i => negb (String.eqb i "private"); l_logic := fun _ => Ok tt;
     l_usage := fun t => Ok (if existsb (Z.eqb 1) t then Some (mk "id_ce_keyUsage" [7]) else None); l_ski := fun _ => Ok None; l_aki := fun _ => Ok None;
     l_eku := fun _ => Ok None; l_basic := fun t => if existsb (Z.eqb 9) t then Err EBadCertTemplate else Ok None; l_san := fun _ => Ok None |}.
Lemma toy_typed : typed toy.
Proof.
  intros id f t e Cf H. unfold check_of in Cf. decompose [or and] Cf; subst; cbn in H; try discriminate.
  - destruct (existsb (Z.eqb 1) t); [now injection H as <- | discriminate].
  - destruct (existsb (Z.eqb 9) t); discriminate.
Qed.
Definition toyX : xlib :=
  {| x_basic := fun c => Ok (match c with b :: _ => Some (b =? 1) | [] => None end); x_subject := fun c => skipn 1 c; x_issuer := fun _ => [0]; x_same := bytes_eqb;
     x_ski := fun c => Ok (Some c); x_aki := fun _ => Ok (Some [99]); x_key := fun c => Ok c; x_verify := fun _ _ => Ok tt; x_exts := fun _ => [mk "a" []]; x_fits := fun _ _ => true |}.

(** ** C162: the extensions of a new certificate *)

Theorem C162_accepted :
  forall L t o au, (exists r, check_extensions L t o au = Ok r) <->
  (exists p, l_parse L t = Ok p /\ (au = true \/ forall e, In e (others p) -> l_known L (e_id e) = true)) /\ l_logic L t = Ok tt /\
  forall id f, check_of L id f -> exists x, f t = Ok x.
Proof. exact accepted. Qed.
Print Assumptions C162_accepted.
(** One of the six types: the extension of the request, else the first of the CA, and never more than one. *)
Theorem C162_looked_at :
  forall L t o au r id f x, typed L -> check_extensions L t o au = Ok r -> check_of L id f -> f t = Ok x ->
  (forall e, x = Some e -> of_type id r = [e]) /\
  (forall e, x = None -> first_of (others o) id e -> of_type id r = [e]) /\
  (x = None -> absent (others o) id -> of_type id r = []).
Proof.
  intros L t o au r id f x T H Cf X. rewrite (of_looked L t o au r id f x T H Cf X). repeat split.
  - now intros e ->.
  - intros e -> F. apply get_ext_some in F. now rewrite F.
  - intros -> A. apply get_ext_none in A. now rewrite A.
Qed.
Print Assumptions C162_looked_at.
(** Any other type: exactly the extensions of the CA. *)
Theorem C162_others :
  forall L t o au r id, typed L -> check_extensions L t o au = Ok r -> ~ looked_at id -> of_type id r = of_type id (others o).
Proof. exact of_rest. Qed.
Print Assumptions C162_others.
Example C162_ex :
  typed toy /\ check_of toy "id_ce_keyUsage" (l_usage toy) /\ ~ looked_at "b" /\
  check_extensions toy [1] (Some [mk "b" []; mk "id_ce_extKeyUsage" [4]; mk "id_ce_extKeyUsage" [5]]) false =
    Ok [mk "id_ce_keyUsage" [7]; mk "id_ce_extKeyUsage" [4]; mk "b" []] /\
  check_extensions toy [2] None false = Err EBadCertTemplate /\ check_extensions toy [2] None true = Ok [] /\ check_extensions toy [9] None true = Err EBadCertTemplate.
Proof.
  split; [exact toy_typed|]. split; [left; auto|]. split; [|repeat split]. unfold looked_at. cbn [In]. intros H. decompose [or] H; try discriminate; contradiction.
Qed.
Print Assumptions C162_ex.
(** Finding: the extensions of the CA do not override those of the request. *)
Theorem C162_override_refuted :
  forall L t o au r id f e e', typed L -> check_extensions L t o au = Ok r -> check_of L id f -> f t = Ok (Some e) ->
  first_of (others o) id e' -> of_type id r = [e].
Proof. intros L t o au r id f e e' T H Cf X _. now rewrite (of_looked L t o au r id f (Some e) T H Cf X). Qed.
Print Assumptions C162_override_refuted.
(** Finding: an extension of the request of a type that is not looked at is dropped without a word. *)
Theorem C162_dropped_refuted :
  forall L t o au r id, typed L -> check_extensions L t o au = Ok r -> ~ looked_at id -> absent (others o) id -> absent r id.
Proof.
  intros L t o au r id T H Nl A e I0 E. pose proof (of_rest L t o au r id T H Nl) as R. rewrite (of_none id (others o) A) in R.
  assert (J : In e (of_type id r)) by (apply filter_In; split; [exact I0 | now apply has_id_iff]). rewrite R in J. destruct J.
Qed.
Print Assumptions C162_dropped_refuted.
Example C162_refuted_ex :
  check_extensions toy [1] (Some [mk "id_ce_keyUsage" [8]]) false = Ok [mk "id_ce_keyUsage" [7]] /\ first_of [mk "id_ce_keyUsage" [8]] "id_ce_keyUsage" (mk "id_ce_keyUsage" [8]) /\
  l_parse toy [3] = Ok (Some [mk "id_ce_cRLDistributionPoints" []]) /\ check_extensions toy [3] None false = Ok [].
Proof. repeat split. exists [], []. repeat split. intros x []. Qed.
Print Assumptions C162_refuted_ex.

(** ** C163: a cross-signed certificate *)

Theorem C163_accepted :
  forall X c t te i, ca_cross_signed X c t te i = Ok tt <->
  (exists b, ca_flag X c b) /\ (exists b, ca_flag X i b) /\
  x_same X (x_subject X c) (x_issuer X c) = false /\ x_same X (x_subject X c) (x_subject X i) = false /\
  (exists s u a, x_ski X c = Ok (Some s) /\ x_ski X i = Ok (Some u) /\ s <> u /\ x_aki X c = Ok a) /\
  (exists k, x_key X i = Ok k /\ x_verify X c k = Ok tt) /\ x_fits X t c = true /\ forall e, In e te -> In e (x_exts X c).
Proof. exact cross_iff. Qed.
Print Assumptions C163_accepted.
(** Finding: the field cA is not looked at, so certificates that are not of a CA are accepted. *)
Theorem C163_ca_refuted : forall X f c t te i, ca_cross_signed (with_ca X f) c t te i = ca_cross_signed X c t te i.
Proof. exact cross_ca. Qed.
Print Assumptions C163_ca_refuted.
(** Finding: the authority key identifier may be any. *)
Theorem C163_aki_refuted : forall X f c t te i, ca_cross_signed (with_aki X f) c t te i = ca_cross_signed X c t te i.
Proof. exact cross_aki. Qed.
Print Assumptions C163_aki_refuted.
Example C163_ex :
  ca_cross_signed toyX [1; 5] [] [mk "a" []] [1; 6] = Ok tt /\ ca_cross_signed toyX [1; 5] [] [mk "b" []] [1; 6] = Err EValueError /\
  ca_cross_signed toyX [1; 0] [] [] [1; 6] = Err EValueError /\ ca_cross_signed toyX [1; 6] [] [] [0; 6] = Err EValueError /\
  ca_cross_signed toyX [0; 5] [] [] [0; 6] = Ok tt /\ ca_flag toyX [0; 5] false /\ x_aki toyX [0; 5] <> x_ski toyX [0; 6].
Proof. repeat split. discriminate. Qed.
Print Assumptions C163_ex.

(** ** C164: passwords of a fixed size *)

Theorem C164_password :
  forall prot pw hash r, password_in_size prot pw hash = Ok r <->
  (any_size prot /\ r = pw) \/ exists n, size_of prot hash n /\ pw <> [] /\ repeated pw r (Z.to_nat n).
Proof. exact password_iff. Qed.
Print Assumptions C164_password.
Theorem C164_expand : forall s n r, expand s n = Ok r <-> s <> [] /\ 0 <= n /\ repeated s r (Z.to_nat n).
Proof. exact expand_iff. Qed.
Print Assumptions C164_expand.
(** Finding: different passwords give the same key: a password and itself twice, and those with the same beginning. *)
Theorem C164_double_refuted :
  forall prot hash n pw, size_of prot hash n -> password_in_size prot (pw ++ pw) hash = password_in_size prot pw hash.
Proof. exact password_double. Qed.
Print Assumptions C164_double_refuted.
Theorem C164_cut_refuted :
  forall prot hash n pw, size_of prot hash n -> n <= Z.of_nat (length pw) -> password_in_size prot pw hash = Ok (firstn (Z.to_nat n) pw).
Proof. exact password_cut. Qed.
Print Assumptions C164_cut_refuted.
Example C164_ex :
  password_in_size "aes192_gmac" [1; 2; 3; 4; 5] None = Ok [1; 2; 3; 4; 5; 1; 2; 3; 4; 5; 1; 2; 3; 4; 5; 1; 2; 3; 4; 5; 1; 2; 3; 4] /\
  size_of "kmac" (Some "shake128") 16 /\ size_of "aes192_gmac" None 24 /\ any_size "hmac-sha256" /\ password_in_size "hmac-sha256" [1] None = Ok [1] /\
  password_in_size "gmac" [1] None = Err EValueError /\ password_in_size "kmac" [] None = Err EValueError.
Proof.
  split; [reflexivity|]. split; [now constructor|]. split.
  { apply S_192; [discriminate | apply within_iff; reflexivity | apply within_not; reflexivity | apply within_iff; reflexivity]. }
  split; [split; [discriminate | apply within_not; reflexivity]|]. repeat split.
Qed.
Print Assumptions C164_ex.
