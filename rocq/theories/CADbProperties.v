(** Properties C01-C10 and C20: certificate database, revocation lists, OCSP,
    CRL and key re-use.  [H] is the digest, [serial], [subject], [key_of] the
    attributes of a certificate; all are arbitrary functions. *)
From Verif Require Import PreludeFacts CADbSpec CADbProofs.
Local Open Scope Z_scope.

(** A concrete digest and history used by the examples below. *)
Definition idH (b : bytes) : bytes := b.
Definition ex_ops : list db_op :=
  [Add [1] NOT_CONFIRMED 0; Add [2] CONFIRMED 0; Change [1] CONFIRMED None None 1;
   Change [1] REVOKED None None 2; Change [2] UPDATED_BUT_NOT_CONFIRMED None (Some [1]) 3].

(** ** C01 *)
Theorem C01_lifecycle_edges : forall (H : bytes -> bytes) (ops : list db_op) (o : db_op) (c : cert),
  let d := db_run H db_init ops in
  let d' := db_step H d o in
  get_cert_state H d' c = get_cert_state H d c \/
  (edge (get_cert_state H d c) (get_cert_state H d' c) /\
   is_ok (db_call H d o) = true /\ H (op_cert o) = H c /\
   op_target o = get_cert_state H d' c).
Proof. exact run_lifecycle. Qed.
Example C01_lifecycle_edges_ex :
  map (fun k => get_cert_state idH (db_run idH db_init (firstn k ex_ops)) [1]) [0; 1; 2; 3; 4; 5]%nat
  = [UNKNOWN; NOT_CONFIRMED; NOT_CONFIRMED; CONFIRMED; REVOKED; REVOKED].
Proof. reflexivity. Qed.

(** Which changes are accepted, exactly, on any database. *)
Theorem C01_change_accepted_iff : forall H d c s r u now,
  is_ok (change_cert_state H d c s r u now) = true <->
  exists e, get_cert H d c = Some e /\
    match s with
    | CONFIRMED => e_state e = NOT_CONFIRMED
    | REVOKED => e_state e = CONFIRMED \/ e_state e = REVIVED
    | REVIVED => e_state e = REVOKED
    | UPDATED_BUT_NOT_CONFIRMED => u <> None
    | UPDATED => u <> None \/ (e_state e = UPDATED_BUT_NOT_CONFIRMED /\ e_upd_digest e <> None)
    | NOT_CONFIRMED | UNKNOWN => False
    end.
Proof. exact change_accepted_iff. Qed.
Example C01_change_accepted_iff_ex :
  is_ok (change_cert_state idH (db_run idH db_init ex_ops) [1] REVIVED None None 9) = true /\
  is_ok (change_cert_state idH (db_run idH db_init ex_ops) [1] REVOKED None None 9) = false /\
  is_ok (change_cert_state idH (db_run idH db_init ex_ops) [2] UPDATED None None 9) = true.
Proof. repeat split. Qed.

(** ** C02 *)
Theorem C02_revoked_stays_revoked_partial : forall H ops1 ops2 c,
  get_cert_state H (db_run H db_init ops1) c = REVOKED ->
  (forall c' s r u now, In (Change c' s r u now) ops2 -> H c' = H c ->
     s <> REVIVED /\ s <> UPDATED /\ s <> UPDATED_BUT_NOT_CONFIRMED) ->
  get_cert_state H (db_run H db_init (ops1 ++ ops2)) c = REVOKED.
Proof. exact revoked_stays. Qed.
Example C02_revoked_stays_revoked_partial_ex :
  get_cert_state idH (db_run idH db_init ex_ops) [1] = REVOKED /\
  get_cert_state idH (db_run idH db_init (ex_ops ++
     [Change [1] CONFIRMED None None 9; Add [1] CONFIRMED 9; Change [1] REVOKED None None 9;
      Change [2] UPDATED None None 9])) [1] = REVOKED.
Proof. split; reflexivity. Qed.

(** The full statement ("until it is revived") is false: a key update is
    accepted for a revoked certificate, which then is no longer listed as revoked. *)
Theorem C02_revoked_until_revived_refuted :
  exists H ops1 ops2 c,
    get_cert_state H (db_run H db_init ops1) c = REVOKED /\
    (forall c' r u now, ~ In (Change c' REVIVED r u now) ops2) /\
    get_cert_state H (db_run H db_init (ops1 ++ ops2)) c = UPDATED_BUT_NOT_CONFIRMED /\
    ~ In c (revoked_certs (db_run H db_init (ops1 ++ ops2))).
Proof.
  exists idH, ex_ops, [Change [1] UPDATED_BUT_NOT_CONFIRMED None (Some [3]) 9], [1].
  repeat split; try reflexivity.
  - intros c' r u now [E|[]]. discriminate.
  - vm_compute. intros [].
Qed.

(** ** C03 *)
Theorem C03_append_only : forall H ops1 ops2,
  exists old' new,
    db_certs (db_run H db_init (ops1 ++ ops2)) = old' ++ new /\
    Forall2 same_identity (db_certs (db_run H db_init ops1)) old' /\
    length new = ok_adds H (db_run H db_init ops1) ops2.
Proof. exact append_only. Qed.
Example C03_append_only_ex :
  map e_cert (db_certs (db_run idH db_init ex_ops)) = [[1]; [2]] /\
  ok_adds idH db_init (ex_ops ++ [Add [7] REVOKED 0]) = 2%nat.
Proof. split; reflexivity. Qed.

Theorem C03_add_appends_one : forall H d c s now d',
  add_cert H d c s now = Ok d' ->
  exists e, db_certs d' = db_certs d ++ [e] /\ e_cert e = c /\ e_digest e = H c /\ e_state e = s.
Proof. exact add_appends_one. Qed.
Theorem C03_change_touches_one : forall H d c s r u now d',
  change_cert_state H d c s r u now = Ok d' ->
  exists a e b e', db_certs d = a ++ e :: b /\ db_certs d' = a ++ e' :: b /\
    e_digest e = H c /\ same_identity e e' /\ e_state e' = s /\
    (forall x, In x a -> e_digest x <> H c).
Proof. exact change_touches_one. Qed.
Example C03_change_touches_one_ex :
  is_ok (add_cert idH db_init [1] CONFIRMED 5) = true /\
  is_ok (change_cert_state idH (db_run idH db_init ex_ops) [1] REVIVED None None 9) = true.
Proof. split; reflexivity. Qed.

(** ** C04 *)
Theorem C04_views : forall H ops,
  let d := db_run H db_init ops in
  (forall c, In c (issued_certs d) <-> exists e, In e (db_certs d) /\ e_cert e = c /\
               e_state e <> NOT_CONFIRMED /\ e_state e <> UPDATED_BUT_NOT_CONFIRMED) /\
  (forall c, In c (revoked_certs d) <-> exists e, In e (db_certs d) /\ e_cert e = c /\ e_state e = REVOKED) /\
  (forall c, In c (updated_certs d) <-> exists e, In e (db_certs d) /\ e_cert e = c /\
               (e_state e = UPDATED \/ e_state e = UPDATED_BUT_NOT_CONFIRMED)) /\
  (forall c, In c (not_confirmed_certs d) <-> exists e, In e (db_certs d) /\ e_cert e = c /\
               e_state e = NOT_CONFIRMED) /\
  (length (not_confirmed_certs d) + length (revoked_certs d) + length (updated_certs d)
   + length (certs_by_state d CONFIRMED) + length (certs_by_state d REVIVED)
   = length (db_certs d))%nat /\
  (length (issued_certs d) + length (not_confirmed_certs d)
   + length (certs_by_state d UPDATED_BUT_NOT_CONFIRMED) = length (db_certs d))%nat.
Proof. exact views_all. Qed.
Example C04_views_ex :
  let d := db_run idH db_init ex_ops in
  issued_certs d = [[1]] /\ revoked_certs d = [[1]] /\ updated_certs d = [[2]] /\ not_confirmed_certs d = [].
Proof. repeat split. Qed.

(** ** C05: for every answer, what it says about the database; every case of the
    database is covered because the four cases exclude each other. *)
Theorem C05_ocsp_agrees_partial : forall H serial d extra n,
  match db_ocsp H serial d extra n with
  | Ok (A_status c O_revoked) =>
      exists e, In e (db_certs d) /\ e_cert e = c /\ serial c = n /\ e_state e = REVOKED
  | Ok (A_status c O_good) =>
      serial c = n /\
      (In c extra \/ exists e, In e (db_certs d) /\ e_cert e = c /\ e_state e <> NOT_CONFIRMED) /\
      (forall e, In e (db_certs d) -> serial (e_cert e) = n -> ~ out_of_service (e_state e))
  | Ok A_unauthorized =>
      (forall e, In e (db_certs d) -> serial (e_cert e) = n -> e_state e = NOT_CONFIRMED) /\
      (forall c, In c extra -> serial c <> n)
  | Ok (A_status _ O_unauthorized) => False
  | Err x =>
      x = ENotImplemented /\
      (forall e, In e (db_certs d) -> serial (e_cert e) = n -> e_state e <> REVOKED) /\
      (exists e, In e (db_certs d) /\ serial (e_cert e) = n /\
                 (e_state e = UPDATED \/ e_state e = UPDATED_BUT_NOT_CONFIRMED))
  end.
Proof. exact ocsp_spec. Qed.

Definition ser (c : cert) : Z := hd 0 c.
Example C05_ocsp_agrees_partial_ex :
  let d := db_run idH db_init (ex_ops ++ [Add [4] CONFIRMED 0; Add [5] NOT_CONFIRMED 0]) in
  map (db_ocsp idH ser d [[9]]) [1; 4; 9; 5; 77; 2]
  = [Ok (A_status [1] O_revoked); Ok (A_status [4] O_good); Ok (A_status [9] O_good);
     Ok A_unauthorized; Ok A_unauthorized; Err ENotImplemented].
Proof. reflexivity. Qed.

Theorem C05_revoked_answers_revoked : forall H serial d extra e,
  In e (db_certs d) -> e_state e = REVOKED ->
  exists c, db_ocsp H serial d extra (serial (e_cert e)) = Ok (A_status c O_revoked) /\
            serial c = serial (e_cert e).
Proof. exact ocsp_revoked. Qed.
Theorem C05_good_answers_good : forall H serial d extra e,
  In e (db_certs d) -> (e_state e = CONFIRMED \/ e_state e = REVIVED) ->
  (forall e', In e' (db_certs d) -> serial (e_cert e') = serial (e_cert e) -> ~ out_of_service (e_state e')) ->
  exists c, db_ocsp H serial d extra (serial (e_cert e)) = Ok (A_status c O_good) /\
            serial c = serial (e_cert e).
Proof. exact ocsp_good. Qed.
Theorem C05_unknown_answers_unauthorized : forall H serial d extra n,
  (forall e, In e (db_certs d) -> serial (e_cert e) <> n) -> (forall c, In c extra -> serial c <> n) ->
  db_ocsp H serial d extra n = Ok A_unauthorized.
Proof. exact ocsp_unknown. Qed.

(** The deviation: an updated certificate is out of service but is not answered. *)
Theorem C05_updated_not_answered_refuted : exists H serial ops extra n e,
  let d := db_run H db_init ops in
  In e (db_certs d) /\ serial (e_cert e) = n /\ e_state e = UPDATED /\
  db_ocsp H serial d extra n = Err ENotImplemented.
Proof.
  exists idH, ser, [Add [2] CONFIRMED 0; Change [2] UPDATED None (Some [1]) 3], [], 2.
  eexists. split; [left; reflexivity|]. repeat split; reflexivity.
Qed.

(** ** C06 *)
Theorem C06_crl_content : forall H serial d n,
  In n (crl_serials (snd (db_current_crl H serial d))) <->
  exists e, In e (db_certs d) /\ serial (e_cert e) = n /\
            (e_state e = REVOKED \/ e_state e = UPDATED \/ e_state e = UPDATED_BUT_NOT_CONFIRMED).
Proof. exact crl_serials_spec. Qed.
Example C06_crl_content_ex :
  crl_serials (snd (db_current_crl idH ser (db_run idH db_init ex_ops))) = [1; 2].
Proof. reflexivity. Qed.

(** Successive CRLs of a CertRevStateDB, whatever is recorded in between. *)
Theorem C06_revdb_crl_numbers_increase : forall H serial rv ops i j ci cj,
  (i < j)%nat ->
  nth_error (crls_of H serial rv ops) i = Some ci ->
  nth_error (crls_of H serial rv ops) j = Some cj ->
  crl_number ci < crl_number cj.
Proof. exact crl_numbers_increase. Qed.
Example C06_revdb_crl_numbers_increase_ex :
  map crl_number (crls_of idH ser rv_init [RCrl; RUpdated [1]; RCrl; RCrl]) = [1; 2; 3].
Proof. reflexivity. Qed.

(** The deviation: the certificate database hands out the same number forever,
    for different contents. *)
Theorem C06_certdb_crl_number_constant_refuted : exists H serial ops1 ops2,
  let d1 := fst (db_current_crl H serial (db_run H db_init ops1)) in
  let c1 := snd (db_current_crl H serial (db_run H db_init ops1)) in
  let c2 := snd (db_current_crl H serial (db_run H d1 ops2)) in
  crl_number c1 = crl_number c2 /\ crl_serials c1 <> crl_serials c2.
Proof.
  exists idH, ser, ex_ops, [Change [1] REVIVED None None 9].
  split; [reflexivity|]. vm_compute. discriminate.
Qed.

(** ** C07 *)
Theorem C07_remove_from_crl : forall l e,
  re_reason e = R_removeFromCRL ->
  (exists a x b, l = a ++ x :: b /\ re_cert x = re_cert e /\
      (forall y, In y a -> re_cert y <> re_cert e) /\ rl_add l [e] = a ++ b) \/
  ((forall y, In y l -> re_cert y <> re_cert e) /\ rl_add l [e] = l).
Proof. exact remove_from_crl. Qed.
Theorem C07_other_reason_appends : forall l e,
  re_reason e <> R_removeFromCRL -> rl_add l [e] = l ++ [e].
Proof. exact other_reason_appends. Qed.
Theorem C07_removed_not_revoked : forall l e,
  NoDup (rl_certs l) -> re_reason e = R_removeFromCRL -> rl_is_revoked (rl_add l [e]) (re_cert e) = false.
Proof. exact removed_not_revoked. Qed.
Theorem C07_others_unaffected : forall l es c,
  (forall e, In e es -> re_cert e <> c) -> rl_is_revoked (rl_add l es) c = rl_is_revoked l c.
Proof. exact others_unaffected. Qed.
Example C07_ex :
  let e c r := {| re_reason := r; re_cert := c; re_hash := None; re_date := None |} in
  rl_certs (rl_add [] [e [1] R_keyCompromise; e [2] R_certificateHold; e [1] R_removeFromCRL;
                       e [9] R_removeFromCRL]) = [[2]].
Proof. reflexivity. Qed.

(** ** C08 *)
Theorem C08_revoked_key_recognised : forall key_of l k,
  rl_contains_key key_of l k = true <->
  exists e, In e l /\ exists x, In x (components k) /\ In x (components (key_of (re_cert e))).
Proof. exact contains_key_spec. Qed.
Example C08_ex :
  let key_of c := if bytes_eqb c [1] then Hybrid [0] [10] [11] else Plain c in
  let e c := {| re_reason := R_keyCompromise; re_cert := c; re_hash := None; re_date := None |} in
  map (rl_contains_key key_of [e [1]; e [20]])
      [Plain [10]; Plain [11]; Hybrid [7] [11] [99]; Hybrid [7] [98] [20]; Plain [98]]
  = [true; true; true; true; false].
Proof. reflexivity. Qed.

(** ** C09 *)
Theorem C09_compromised_key_detected_partial : forall key_of d b keys,
  (b = B_ir \/ b = B_cr \/ b = B_kur \/ (b = B_p10cr /\ length keys = 1%nat)) ->
  (forall x, In x keys -> x <> None) ->
  (rv_check_compromised key_of d b keys = true <->
   exists k, In (Some k) keys /\
     exists e, In e (rv_rev d) /\ shares k (key_of (re_cert e))).
Proof. exact compromised_detected. Qed.
Theorem C09_no_false_alarm : forall key_of d b keys,
  rv_check_compromised key_of d b keys = true ->
  exists k, In (Some k) keys /\ exists e, In e (rv_rev d) /\ shares k (key_of (re_cert e)).
Proof. exact compromised_sound. Qed.
Definition ex_rv : rev_db :=
  rv_add_rev_entry rv_init [{| re_reason := R_keyCompromise; re_cert := [1]; re_hash := None; re_date := None |}].
Example C09_ex :
  rv_check_compromised Plain ex_rv B_cr [Some (Plain [3]); Some (Plain [1])] = true.
Proof. reflexivity. Qed.
(** Deviations: a template without key hides the ones after it, and ccr is not scanned. *)
Theorem C09_hidden_by_missing_key_refuted : exists key_of d keys k e,
  In (Some k) keys /\ In e (rv_rev d) /\ key_of (re_cert e) = k /\
  rv_check_compromised key_of d B_ir keys = false.
Proof.
  exists Plain, ex_rv, [None; Some (Plain [1])], (Plain [1]).
  eexists. split; [simpl; auto|]. split; [left; reflexivity|]. split; reflexivity.
Qed.
Theorem C09_ccr_never_scanned_refuted : forall key_of d keys,
  rv_check_compromised key_of d B_ccr keys = false.
Proof. reflexivity. Qed.

(** ** C10 *)
Theorem C10_key_reuse_partial : forall subject key_of issued revoked updated k s,
  ksc_contains subject key_of issued revoked updated k s = true <->
  exists c, In c (issued ++ revoked ++ updated) /\ subject c = s /\
    match k, key_of c with
    | Hybrid _ p t, Hybrid _ p' t' => p = p' \/ t = t' \/ p = t'   (* t = p' is missing *)
    | _, _ => shares k (key_of c)
    end.
Proof. exact key_reuse. Qed.
Theorem C10_no_false_alarm : forall subject key_of issued revoked updated k s,
  ksc_contains subject key_of issued revoked updated k s = true ->
  exists c, In c (issued ++ revoked ++ updated) /\ subject c = s /\ shares k (key_of c).
Proof. exact key_reuse_sound. Qed.
Example C10_ex :
  ksc_contains (fun _ => [0]) (fun _ => Hybrid [1] [2] [3]) [[1]] [] [] (Plain [3]) [0] = true /\
  ksc_contains (fun _ => [0]) (fun _ => Hybrid [1] [2] [3]) [[1]] [] [] (Plain [3]) [9] = false.
Proof. split; reflexivity. Qed.
Theorem C10_trad_vs_pq_missed_refuted : exists subject key_of c k,
  shares k (key_of c) /\ ksc_contains subject key_of [c] [] [] k (subject c) = false.
Proof.
  exists (fun _ => [0]), (fun _ => Hybrid [1] [2] [3]), [9], (Hybrid [1] [8] [2]).
  split; [exists [2]; simpl; auto|reflexivity].
Qed.

(** The life-cycle report of [check_cert_status] gives the worst status. *)
Theorem C10_status_priority : forall subject key_of issued revoked updated k s,
  let used l := exists c, In c l /\ subject c = s /\ compare_pub_keys key_of k c = true in
  match ksc_status subject key_of issued revoked updated k s with
  | KS_revoked => used revoked
  | KS_updated => used updated /\ ~ used revoked
  | KS_in_use => used issued /\ ~ used revoked /\ ~ used updated
  | KS_good => ~ used issued /\ ~ used revoked /\ ~ used updated
  end.
Proof. exact status_priority. Qed.

(** ** C20 *)
Theorem C20_update_history_chain : forall H ops c l,
  let d := db_run H db_init ops in
  get_updated_history H d c = Some l ->
  exists c0 t e, l = c0 :: t /\ H c0 = H c /\ get_cert H d c = Some e /\ e_cert e = c0 /\
    chain (replaces H (db_certs d)) l /\ (length l <= 11)%nat /\
    (length l = 11%nat \/
     exists z, In z (db_certs d) /\ e_cert z = last l c0 /\
       (e_upd_digest z = None \/ exists dig, e_upd_digest z = Some dig /\
                                  forall x, In x (db_certs d) -> e_digest x <> dig)).
Proof. exact update_history_chain. Qed.
Example C20_ex :
  get_updated_history idH (db_run idH db_init
     [Add [1] CONFIRMED 0; Add [2] CONFIRMED 0; Add [3] CONFIRMED 0;
      Change [1] UPDATED None (Some [2]) 1; Change [2] UPDATED None (Some [3]) 1]) [1]
  = Some [[1]; [2]; [3]] /\
  option_map (@length cert) (get_updated_history idH (db_run idH db_init
     [Add [1] CONFIRMED 0; Add [2] CONFIRMED 0;
      Change [1] UPDATED None (Some [2]) 1; Change [2] UPDATED None (Some [1]) 1]) [1]) = Some 11%nat.
Proof. split; reflexivity. Qed.
Theorem C20_none_iff_not_updated : forall H d c,
  get_updated_history H d c = None <->
  forall e, get_cert H d c = Some e -> e_upd_digest e = None.
Proof. exact history_none. Qed.

Print Assumptions C01_lifecycle_edges.
Print Assumptions C01_change_accepted_iff.
Print Assumptions C02_revoked_stays_revoked_partial.
Print Assumptions C03_append_only.
Print Assumptions C04_views.
Print Assumptions C05_ocsp_agrees_partial.
Print Assumptions C06_crl_content.
Print Assumptions C06_revdb_crl_numbers_increase.
Print Assumptions C07_remove_from_crl.
Print Assumptions C08_revoked_key_recognised.
Print Assumptions C09_compromised_key_detected_partial.
Print Assumptions C10_key_reuse_partial.
Print Assumptions C20_update_history_chain.
