(** C81 to C86: named bit strings, key usage, extended key usage, status information and requests. *)
From Coq Require Import String Ascii NArith.
From Verif Require Import Prelude PreludeFacts PyStr PyStrProofs BitModel BitSpec BitProofs BitMore BitUsage BitReq.
Local Notation length := List.length.
Local Open Scope string_scope.

(** The failure information has good names, and so has the key usage. *)
Theorem C81_names : good_names KU_NAMES /\ good_names FAIL_NAMES /\ length KU_NAMES = 9%nat /\ length FAIL_NAMES = 27%nat.
Proof. split; [exact ku_good|]. split; [exact fail_good|]. split; reflexivity. Qed.
Print Assumptions C81_names.

(** Bit strings of the examples. *)
Definition fail1 (i : nat) : list bool := (repeat false i ++ [true])%list.
Definition bad_alg_time : list bool := [true; false; false; true].

(** ** C81 *)
(** By index: the bit is set; exclusively: it is the only one. *)
Theorem C81_index : forall names x i (excl : bool),
  exists b, is_bit_set (bits names x) (AInt (Z.of_nat i)) excl = Ok b /\
            (b = true <-> if excl then only_set x i else is_set x i).
Proof. intros. eexists. split; [reflexivity|]. apply bit_set_spec. Qed.
Print Assumptions C81_index.
Example C81_index_ex :
  is_bit_set (bits FAIL_NAMES bad_alg_time) (AInt 3) false = Ok true /\
  is_bit_set (bits FAIL_NAMES bad_alg_time) (AInt 3) true = Ok false /\
  is_bit_set (bits FAIL_NAMES (fail1 9)) (AInt 9) true = Ok true /\
  is_bit_set (bits FAIL_NAMES (fail1 9)) (AInt 25) false = Ok false.
Proof. repeat split. Qed.

(** A decimal string is the index it writes. *)
Theorem C81_decimal : forall names x i excl,
  is_bit_set (bits names x) (AStr (dec i)) excl = is_bit_set (bits names x) (AInt (Z.of_nat i)) excl.
Proof. exact decimal_index. Qed.
Print Assumptions C81_decimal.
Example C81_decimal_ex : dec 26 = "26" /\ is_bit_set (bits FAIL_NAMES (fail1 26)) (AStr "26") true = Ok true.
Proof. split; reflexivity. Qed.

(** A comma-separated list of two or more indices: one of them passes the test. *)
Theorem C81_decimal_list : forall names x i j l (excl : bool),
  exists b, is_bit_set (bits names x) (AStr (String.concat "," (map dec (i :: j :: l)))) excl = Ok b /\
            (b = true <-> exists k, In k (i :: j :: l) /\ (if excl then only_set x k else is_set x k)).
Proof. exact decimal_list. Qed.
Print Assumptions C81_decimal_list.
Example C81_decimal_list_ex :
  String.concat "," (map dec [1; 9]%nat) = "1,9" /\ is_bit_set (bits FAIL_NAMES (fail1 9)) (AStr "1,9") false = Ok true.
Proof. split; reflexivity. Qed.

(** Names separated by commas, with any whitespace around them: one of the named bits is set. *)
Theorem C81_any_name : forall names x s ns,
  good_names names -> lists is_space s ns -> (forall n, In n ns -> In n names) ->
  exists b, is_bit_set (bits names x) (AStr s) false = Ok b /\
            (b = true <-> exists n, In n ns /\ named_set names x n).
Proof. exact names_any. Qed.
Print Assumptions C81_any_name.
Lemma two_listed : lists is_space "badPOP, badTime " ["badPOP"; "badTime"].
Proof.
  split; [discriminate|]. exists ["badPOP"; " badTime "]. split; [reflexivity|].
  constructor; [exists "", ""; repeat split|constructor; [exists " ", " "; repeat split|constructor]].
Qed.
Example C81_any_name_ex :
  lists is_space "badPOP, badTime " ["badPOP"; "badTime"] /\
  is_bit_set (bits FAIL_NAMES bad_alg_time) (AStr "badPOP, badTime ") false = Ok true /\
  is_bit_set (bits FAIL_NAMES (fail1 4)) (AStr "badPOP, badTime ") false = Ok false.
Proof. split; [exact two_listed|]. split; reflexivity. Qed.

(** One name exclusively: the named bit is the only one, in a bit string with no bits past the names; a bit string with
    all bits set is refused with a ValueError. *)
Theorem C81_exclusive_name : forall names x s n,
  good_names names -> (2 <= length names)%nat -> lists is_space s [n] -> In n names ->
  ((forall i, (i < length names)%nat -> is_set x i) -> is_bit_set (bits names x) (AStr s) true = Err EValueError) /\
  (~ (forall i, (i < length names)%nat -> is_set x i) -> (length x <= length names)%nat ->
   exists b, is_bit_set (bits names x) (AStr s) true = Ok b /\ (b = true <-> only_named names x n)).
Proof. exact names_exclusive. Qed.
Print Assumptions C81_exclusive_name.
Example C81_exclusive_name_ex :
  is_bit_set (bits FAIL_NAMES (fail1 9)) (AStr " badPOP") true = Ok true /\
  is_bit_set (bits FAIL_NAMES bad_alg_time) (AStr "badAlg") true = Ok false /\
  is_bit_set (bits FAIL_NAMES (repeat true 27)) (AStr "badAlg") true = Err EValueError.
Proof. repeat split. Qed.

(** Names separated by single commas, exclusively: the named bits are exactly the set ones, in order, or one of the named
    bits is the only one set. *)
Theorem C81_exclusive_list : forall names x ns,
  good_names names -> ns <> [] -> (forall n, In n ns -> In n names) ->
  (names_set names x = ns -> is_bit_set (bits names x) (AStr (String.concat "," ns)) true = Ok true) /\
  (names_set names x <> ns -> (forall i, (i < length names)%nat -> is_set x i) ->
   is_bit_set (bits names x) (AStr (String.concat "," ns)) true = Err EValueError) /\
  (names_set names x <> ns -> ~ (forall i, (i < length names)%nat -> is_set x i) ->
   exists b, is_bit_set (bits names x) (AStr (String.concat "," ns)) true = Ok b /\
             (b = true <-> exists n, In n ns /\ only_named names x n)).
Proof. exact names_exclusive_list. Qed.
Print Assumptions C81_exclusive_list.

(** Names that do not exist, and bit strings without value, are refused with a ValueError. *)
Theorem C81_unknown : forall names x s ns n excl,
  Forall (fun m => is_name m = true) ns -> lists is_space s ns -> In n ns -> ~ In n names ->
  is_bit_set (bits names x) (AStr s) excl = Err EValueError.
Proof. exact unknown_name. Qed.
Print Assumptions C81_unknown.
Theorem C81_no_value : forall names a excl, is_bit_set {| b_names := names; b_val := None |} a excl = Err EValueError.
Proof. reflexivity. Qed.
Print Assumptions C81_no_value.

(** Refuted: a blank after the comma does not matter. *)
Theorem C81_blank_refuted :
  ~ (forall x s t ns excl, lists is_space s ns -> lists is_space t ns -> (forall n, In n ns -> In n FAIL_NAMES) ->
       is_bit_set (bits FAIL_NAMES x) (AStr s) excl = is_bit_set (bits FAIL_NAMES x) (AStr t) excl).
Proof.
  intros H. specialize (H bad_alg_time "badAlg,badTime" "badAlg, badTime" ["badAlg"; "badTime"] true).
  assert (is_bit_set (bits FAIL_NAMES bad_alg_time) (AStr "badAlg,badTime") true = Ok true) as A by reflexivity.
  assert (is_bit_set (bits FAIL_NAMES bad_alg_time) (AStr "badAlg, badTime") true = Ok false) as B by reflexivity.
  rewrite A, B in H. discriminate H.
  - apply (lists_plain is_space ["badAlg"; "badTime"]). discriminate.
  - split; [discriminate|]. exists ["badAlg"; " badTime"]. split; [reflexivity|].
    constructor; [exists "", ""; repeat split|constructor; [exists " ", ""; repeat split|constructor]].
  - intros n [<-|[<-|[]]]; cbn [In FAIL_NAMES]; auto.
Qed.
Print Assumptions C81_blank_refuted.
(** Refuted: a list asked for exclusively has to be set completely. *)
Theorem C81_exclusive_all_refuted :
  ~ (forall x ns, ns <> [] -> (forall n, In n ns -> In n FAIL_NAMES) ->
       is_bit_set (bits FAIL_NAMES x) (AStr (String.concat "," ns)) true = Ok true -> forall n, In n ns -> named_set FAIL_NAMES x n).
Proof.
  intros H. specialize (H (fail1 0) ["badAlg"; "badTime"] ltac:(discriminate)).
  destruct (H ltac:(intros n [<-|[<-|[]]]; cbn [In FAIL_NAMES]; auto) eq_refl "badTime" ltac:(cbn [In]; auto)) as (i & Hi & Hs).
  destruct i as [|i]; [discriminate Hi|]. destruct i; discriminate Hs.
Qed.
Print Assumptions C81_exclusive_all_refuted.
(** Refuted: the documented list of indices "1, 9" is understood. *)
Theorem C81_documented_list_refuted : forall x excl, is_bit_set (bits FAIL_NAMES x) (AStr "1, 9") excl = Err EValueError.
Proof.
  intros x excl. unfold is_bit_set. cbn [b_val bits]. change (isdigit _) with false. cbv iota zeta.
  unfold bits. rewrite get_names_eq. cbn [bind]. reflexivity.
Qed.
Print Assumptions C81_documented_list_refuted.
(** Refuted: an index past the bits is never set; a negative one counts from the end. *)
Theorem C81_negative : forall names x k excl, (1 <= k <= length x)%nat ->
  is_bit_set (bits names x) (AInt (- Z.of_nat k)) excl = is_bit_set (bits names x) (AInt (Z.of_nat (length x - k))) excl.
Proof. exact negative_index. Qed.
Print Assumptions C81_negative.
Theorem C81_negative_refuted :
  ~ (forall x k excl, (0 < k)%Z -> is_bit_set (bits FAIL_NAMES x) (AInt (- k)) excl = Ok false).
Proof. intros H. specialize (H [true] 1%Z false eq_refl). discriminate H. Qed.
Print Assumptions C81_negative_refuted.
(** Refuted: by name and by index, exclusively, are the same; a bit past the names is overlooked by name. *)
Theorem C81_name_index_refuted :
  ~ (forall x i n, nth_error FAIL_NAMES i = Some n ->
       is_bit_set (bits FAIL_NAMES x) (AStr n) true = is_bit_set (bits FAIL_NAMES x) (AInt (Z.of_nat i)) true).
Proof. intros H. specialize (H (true :: repeat false 26 ++ [true])%list O "badAlg" eq_refl). discriminate H. Qed.
Print Assumptions C81_name_index_refuted.

(** ** C82 *)
(** The names of the set bits, in their order, separated by a comma and a blank. *)
Theorem C82_names_of_bits : forall names x,
  get_set_bitstring_names (bits names x) = Ok (String.concat ", " (names_set names x)) /\
  forall n, In n (names_set names x) <-> named_set names x n.
Proof. intros. split; [apply get_names_eq|apply names_set_In]. Qed.
Print Assumptions C82_names_of_bits.
Example C82_names_of_bits_ex : get_set_bitstring_names (bits FAIL_NAMES bad_alg_time) = Ok "badAlg, badTime".
Proof. reflexivity. Qed.

(** Two bit strings give the same text iff they have the same named bits. *)
Theorem C82_text_exact : forall names x y, good_names names ->
  (get_set_bitstring_names (bits names x) = get_set_bitstring_names (bits names y)
   <-> forall n, named_set names x n <-> named_set names y n).
Proof.
  intros names x y G. unfold bits. rewrite !get_names_eq. rewrite <- (names_set_eq names x y (proj1 G)). split.
  - intros H. assert (String.concat ", " (names_set names x) = String.concat ", " (names_set names y)) as E by congruence.
    apply concat_inj in E; [exact E|apply Forall_forall; intros n; apply names_set_names, G|apply Forall_forall; intros n; apply names_set_names, G].
  - intros ->. reflexivity.
Qed.
Print Assumptions C82_text_exact.
(** The text is split into the names again, except that no name gives one empty name. *)
Theorem C82_split : forall names x, good_names names ->
  split2 "," " " (String.concat ", " (names_set names x)) = match names_set names x with [] => [""] | l => l end.
Proof.
  intros names x G. destruct (names_set names x) as [|a r] eqn:E; [reflexivity|]. rewrite <- E. apply split_names_set; [apply G|congruence].
Qed.
Print Assumptions C82_split.

(** From names to bits: exactly the named bits are set and the last bit is a set one (no trailing zeros, as DER asks). *)
Theorem C82_bits_of_names : forall names s ns,
  good_names names -> lists is_space s ns -> (forall n, In n ns -> In n names) ->
  exists y, asn1_names_to_bitstring names s = Ok (bits names (y ++ [true])%list) /\
            forall i, is_set (y ++ [true])%list i <-> exists n, In n ns /\ nth_error names i = Some n.
Proof. exact names_to_bits. Qed.
Print Assumptions C82_bits_of_names.
Example C82_bits_of_names_ex :
  asn1_names_to_bitstring FAIL_NAMES "badTime, badAlg" = Ok (bits FAIL_NAMES bad_alg_time).
Proof. reflexivity. Qed.
Theorem C82_unknown_name : forall names s ns n,
  Forall (fun m => is_name m = true) ns -> lists is_space s ns -> In n ns -> ~ In n names ->
  asn1_names_to_bitstring names s = Err EValueError.
Proof. exact names_to_bits_unknown. Qed.
Print Assumptions C82_unknown_name.
(** The library's own constructor gives the same bit string. *)
Theorem C82_constructor : forall names s ns,
  good_names names -> lists is_space s ns -> (forall n, In n ns -> In n names) ->
  bitstr_of names s = asn1_names_to_bitstring names s.
Proof. exact same_bits. Qed.
Print Assumptions C82_constructor.
(** Round trip: the text of the bits set for a list of names holds these names once, in the order of the bits. *)
Theorem C82_round_trip : forall names s ns,
  good_names names -> lists is_space s ns -> (forall n, In n ns -> In n names) ->
  exists b, asn1_names_to_bitstring names s = Ok b /\
            get_set_bitstring_names b = Ok (String.concat ", " (filter (fun n => str_mem n ns) names)).
Proof.
  intros names s ns G Hl Hin. destruct (names_to_bits names s ns G Hl Hin) as (y & E & S). eexists. split; [exact E|].
  unfold bits. rewrite get_names_eq. do 2 f_equal. apply names_set_filter. intros i n Hi. rewrite S. split.
  - intros (m & Hm & Em). congruence.
  - intros H. eauto.
Qed.
Print Assumptions C82_round_trip.

(** ** C83 *)
(** The levels of strictness: numbers, decimal strings and labels in any case; all others are refused. *)
Theorem C83_strictness_number : forall i st, strictness_get (VInt i) = Ok st <-> i = level st.
Proof. exact strictness_of_int_ok. Qed.
Print Assumptions C83_strictness_number.
Theorem C83_strictness_text : forall s st,
  strictness_get (VStr s) = Ok st <-> (isdigit s = true /\ digits_val 0 s = level st) \/ upper s = label st.
Proof. exact strictness_get_str. Qed.
Print Assumptions C83_strictness_text.
Theorem C83_strictness_error : forall v e, strictness_get v = Err e -> e = EValueError.
Proof. exact strictness_get_err. Qed.
Print Assumptions C83_strictness_error.
Example C83_strictness_ex :
  strictness_get (VStr "abs_Strict") = Ok ABS_STRICT /\ strictness_get (VStr "2") = Ok STRICT /\
  strictness_get (VInt 0) = Ok NONE /\ strictness_get (VStr "4") = Err EValueError.
Proof. repeat split. Qed.

(** A key usage check passes iff the extension is what the level asks for: nothing; all usages if there is an extension;
    all usages; exactly the usages. *)
Theorem C83_exact : forall c s ns v st,
  strictness_get v = Ok st -> lists is_space s ns -> (forall n, In n ns -> In n KU_NAMES) ->
  (usage_ok st (k_usage c) ns -> validate_key_usage c s v = Ok tt) /\
  (~ usage_ok st (k_usage c) ns -> validate_key_usage c s v = Err EBadKeyUsage).
Proof. exact validate_exact. Qed.
Print Assumptions C83_exact.
Definition ca_usage : list bool := [false; false; false; false; false; true; true].
Definition with_usage (x : option (list bool)) : kcert := {| k_usage := x; k_eku := None |}.
Example C83_exact_ex :
  validate_key_usage (with_usage (Some ca_usage)) "cRLSign" (VStr "STRICT") = Ok tt /\
  validate_key_usage (with_usage (Some ca_usage)) "cRLSign" (VStr "ABS_STRICT") = Err EBadKeyUsage /\
  validate_key_usage (with_usage (Some ca_usage)) "cRLSign , keyCertSign" (VInt 3) = Ok tt /\
  validate_key_usage (with_usage None) "cRLSign" (VInt 1) = Ok tt /\
  validate_key_usage (with_usage None) "cRLSign" (VInt 2) = Err EBadKeyUsage /\
  validate_key_usage (with_usage (Some ca_usage)) "digitalSignature" (VInt 1) = Err EBadKeyUsage.
Proof. repeat split. Qed.
Theorem C83_unknown : forall x s ns n v st eku,
  strictness_get v = Ok st -> st <> NONE -> Forall (fun m => is_name m = true) ns -> lists is_space s ns -> In n ns ->
  ~ In n KU_NAMES ->
  validate_key_usage {| k_usage := Some x; k_eku := eku |} s v =
  Err (match st with ABS_STRICT => EPyAsn1 | _ => EValueError end).
Proof. exact validate_unknown. Qed.
Print Assumptions C83_unknown.

(** A prepared extension has exactly the named usages, the given criticality, and passes every level. *)
Theorem C83_prepare : forall s ns c,
  lists is_space s ns -> (forall n, In n ns -> In n KU_NAMES) ->
  exists y, prepare_key_usage_extension s c = Ok ((y ++ [true])%list, c) /\ (forall n, allows (y ++ [true]) n <-> In n ns).
Proof. exact prepare_exact. Qed.
Print Assumptions C83_prepare.
Theorem C83_prepare_unknown : forall s ns n c,
  Forall (fun m => is_name m = true) ns -> lists is_space s ns -> In n ns -> ~ In n KU_NAMES ->
  prepare_key_usage_extension s c = Err EValueError.
Proof. exact prepare_unknown. Qed.
Print Assumptions C83_prepare_unknown.
Theorem C83_prepared_passes : forall s ns c y cr v st eku,
  lists is_space s ns -> (forall n, In n ns -> In n KU_NAMES) -> prepare_key_usage_extension s c = Ok (y, cr) ->
  strictness_get v = Ok st -> validate_key_usage {| k_usage := Some y; k_eku := eku |} s v = Ok tt.
Proof. exact prepared_accepted. Qed.
Print Assumptions C83_prepared_passes.

(** The negative check fails iff all of the given usages are there. *)
Theorem C83_must_not : forall x eku s ns b,
  lists is_space s ns -> (forall n, In n ns -> In n KU_NAMES) ->
  ((forall n, In n ns -> allows x n) -> must_not_contain_key_usage {| k_usage := Some x; k_eku := eku |} s b = Err EBadKeyUsage) /\
  (~ (forall n, In n ns -> allows x n) -> must_not_contain_key_usage {| k_usage := Some x; k_eku := eku |} s b = Ok tt).
Proof. exact must_not_exact. Qed.
Print Assumptions C83_must_not.
Theorem C83_must_not_absent : forall s b,
  must_not_contain_key_usage (with_usage None) s b = if b then Err EBadKeyUsage else Ok tt.
Proof. reflexivity. Qed.
Print Assumptions C83_must_not_absent.
(** Refuted: a certificate that passes the negative check has none of the usages. *)
Theorem C83_must_not_refuted :
  ~ (forall x s ns b, lists is_space s ns -> (forall n, In n ns -> In n KU_NAMES) ->
       must_not_contain_key_usage (with_usage (Some x)) s b = Ok tt -> forall n, In n ns -> ~ allows x n).
Proof.
  intros H. apply (H ca_usage "digitalSignature,keyCertSign" ["digitalSignature"; "keyCertSign"] true
                     (lists_plain is_space ["digitalSignature"; "keyCertSign"] ltac:(discriminate))
                     ltac:(intros n [<-|[<-|[]]]; cbn [In KU_NAMES]; auto 9) eq_refl "keyCertSign").
  - cbn [In]. auto. - exists 5%nat. split; reflexivity.
Qed.
Print Assumptions C83_must_not_refuted.

(** ** C84 *)
(** The CMP extended key usages, separated by single commas: the check passes iff the extension is what the level asks for. *)
Theorem C84_exact : forall c ns v st,
  strictness_get v = Ok st -> ns <> [] -> (forall n, In n ns -> In n THREE) ->
  (forall l, k_eku c = Some l -> NoDup l) ->
  (eku_ok st (k_eku c) ns -> validate_cmp_extended_key_usage c (String.concat "," ns) v = Ok tt) /\
  (~ eku_ok st (k_eku c) ns -> validate_cmp_extended_key_usage c (String.concat "," ns) v = Err EValueError).
Proof. exact eku_exact. Qed.
Print Assumptions C84_exact.
Definition with_eku (l : list oid) : kcert := {| k_usage := None; k_eku := Some l |}.
Definition SERVER_AUTH : oid := [1;3;6;1;5;5;7;3;1]%Z.
Example C84_exact_ex :
  validate_cmp_extended_key_usage (with_eku [SERVER_AUTH; CMC_RA; CMC_CA]) "cmcCA,cmcRA" (VInt 2) = Ok tt /\
  validate_cmp_extended_key_usage (with_eku [SERVER_AUTH; CMC_RA; CMC_CA]) "cmcCA,cmcRA" (VInt 3) = Err EValueError /\
  validate_cmp_extended_key_usage (with_eku [CMC_RA; CMC_CA]) "cmcCA,cmcRA" (VInt 3) = Ok tt /\
  validate_cmp_extended_key_usage (with_eku [CMC_RA]) "cmKGA" (VInt 1) = Err EValueError.
Proof. repeat split. Qed.

(** A prepared extension holds exactly the OIDs of the names, each once. *)
Theorem C84_prepare : forall ns, ns <> [] -> (forall n, In n ns -> In n THREE) ->
  exists l, prepare_eku (String.concat "," ns) = Ok l /\ NoDup l /\ forall o, In o l <-> exists n, In n ns /\ eku_oid n o.
Proof. exact expected_exact. Qed.
Print Assumptions C84_prepare.
Theorem C84_prepared_passes : forall ns l v st u, ns <> [] -> (forall n, In n ns -> In n THREE) ->
  prepare_eku (String.concat "," ns) = Ok l -> strictness_get v = Ok st ->
  validate_cmp_extended_key_usage {| k_usage := u; k_eku := Some l |} (String.concat "," ns) v = Ok tt.
Proof.
  intros ns l v st u Hne Hin E Ev. destruct (expected_exact ns Hne Hin) as (l' & E' & Hd & S).
  assert (l = l') as -> by (unfold prepare_eku in E; congruence).
  apply (proj1 (eku_exact {| k_usage := u; k_eku := Some l' |} ns v st Ev Hne Hin ltac:(cbn [k_eku]; intros k [= <-]; exact Hd))).
  cbn [k_eku]. destruct st; cbn [eku_ok]; auto; intros n o Hn Ho; apply S; eauto.
Qed.
Print Assumptions C84_prepared_passes.
(** Any other name between the commas is refused. *)
Theorem C84_unknown : forall parts, parts <> [] -> Forall (fun s => no_char "," s = true) parts ->
  strip is_blank (String.concat "," parts) = String.concat "," parts ->
  (exists q, In q parts /\ ~ In q THREE) -> expected_eku (String.concat "," parts) = Err EValueError.
Proof. exact expected_unknown. Qed.
Print Assumptions C84_unknown.
(** Refuted: the documented form with a blank is refused for every certificate with an extension. *)
Theorem C84_documented_form_refuted : forall u l v st, strictness_get v = Ok st -> st <> NONE ->
  validate_cmp_extended_key_usage {| k_usage := u; k_eku := Some l |} "cmcCA, cmcRA" v = Err EValueError.
Proof.
  intros u l v st Ev Hst. unfold validate_cmp_extended_key_usage. rewrite Ev. cbn [bind k_eku].
  change (expected_eku "cmcCA, cmcRA") with (@Err (list oid) EValueError). destruct st; [contradiction|..]; reflexivity.
Qed.
Print Assumptions C84_documented_form_refuted.
(** Refuted for extensions with a repeated OID, in both directions. *)
Theorem C84_repeated_passes_refuted :
  ~ (forall l ns v st, ns <> [] -> (forall n, In n ns -> In n THREE) -> strictness_get v = Ok st ->
       validate_cmp_extended_key_usage (with_eku l) (String.concat "," ns) v = Ok tt -> eku_ok st (Some l) ns).
Proof.
  intros H. specialize (H [CMC_CA; CMC_CA] ["cmcCA"; "cmcRA"] (VInt 2) STRICT ltac:(discriminate)
    ltac:(intros n [<-|[<-|[]]]; cbn [In THREE]; auto) eq_refl eq_refl "cmcRA" CMC_RA).
  destruct H as [H|[H|[]]]; [cbn [In]; auto|unfold eku_oid, CMC_RA; auto|discriminate H|discriminate H].
Qed.
Print Assumptions C84_repeated_passes_refuted.
Theorem C84_repeated_fails_refuted :
  ~ (forall l ns v st, ns <> [] -> (forall n, In n ns -> In n THREE) -> strictness_get v = Ok st ->
       eku_ok st (Some l) ns -> validate_cmp_extended_key_usage (with_eku l) (String.concat "," ns) v = Ok tt).
Proof.
  intros H. specialize (H [CMC_RA; CMC_RA] ["cmcRA"] (VInt 2) STRICT ltac:(discriminate)
    ltac:(intros n [<-|[]]; cbn [In THREE]; auto) eq_refl).
  assert (eku_ok STRICT (Some [CMC_RA; CMC_RA]) ["cmcRA"]) as A.
  { intros n o [<-|[]] [(H1 & _)|[(_ & ->)|(H1 & _)]]; [discriminate H1|left; reflexivity|discriminate H1]. }
  specialize (H A). discriminate H.
Qed.
Print Assumptions C84_repeated_fails_refuted.

(** ** C85 *)
(** Comparing a named number with a list of names, where names are numbered from 0. *)
Theorem C85_compare : forall named v s ns (excl : bool),
  NoDup (map fst named) -> Forall (fun n => is_name n = true) (map fst named) -> numbered named ->
  lists is_blank s ns -> (forall n, In n ns -> In n (map fst named)) ->
  exists b, asn1_compare_named_values (NInt named v) s excl false = Ok b /\
            (b = true <-> excl = true /\ exists n, In n ns /\ In (n, v) named).
Proof. exact compare_exact. Qed.
Print Assumptions C85_compare.
Theorem C85_status_numbered :
  NoDup (map fst PKI_STATUS) /\ Forall (fun n => is_name n = true) (map fst PKI_STATUS) /\ numbered PKI_STATUS.
Proof. exact status_good. Qed.
Print Assumptions C85_status_numbered.
Example C85_compare_ex :
  asn1_compare_named_values (NInt PKI_STATUS 2) "accepted, rejection" true false = Ok true /\
  asn1_compare_named_values (NInt PKI_STATUS 1) "accepted, rejection" true false = Ok false.
Proof. split; reflexivity. Qed.
(** Refuted without exclusive: never true. *)
Theorem C85_not_exclusive_refuted :
  ~ (forall v n, In (n, v) PKI_STATUS -> asn1_compare_named_values (NInt PKI_STATUS v) n false false = Ok true).
Proof. intros H. specialize (H 0%Z "accepted" ltac:(left; reflexivity)). discriminate H. Qed.
Print Assumptions C85_not_exclusive_refuted.
(** Refuted for the CRL reasons, which are not numbered without gap. *)
Theorem C85_reasons_refuted :
  asn1_compare_named_values (NInt CRL_REASON 8) "removeFromCRL" true false = Ok false /\
  asn1_compare_named_values (NInt CRL_REASON 8) "privilegeWithdrawn" true false = Ok true /\
  In ("removeFromCRL", 8%Z) CRL_REASON /\ ~ In ("privilegeWithdrawn", 8%Z) CRL_REASON.
Proof.
  split; [reflexivity|]. split; [reflexivity|]. split; [cbn [In CRL_REASON]; auto 12|].
  intros H. cbn [In CRL_REASON] in H. repeat (destruct H as [H|H]; [discriminate|]). exact H.
Qed.
Print Assumptions C85_reasons_refuted.

(** The status check passes iff the body has a status, the status is one of the listed, failure information is there if it
    must be, one of the listed failures is set unless failures are tolerated, and the body is the given one. *)
Theorem C85_verify : forall m body st sts fail excl must allow,
  lists is_blank st sts -> (forall n, In n sts -> In n (map fst PKI_STATUS)) ->
  (verify_pkistatusinfo m body (Some st) fail excl must allow = Ok tt <->
   In (m_body m) BODIES /\ (exists n, In n sts /\ In (n, s_status (m_info m)) PKI_STATUS) /\
   (must = true -> s_fail (m_info m) <> None) /\
   (forall f, fail = Some f -> exists r, is_bit_set (fail_info (m_info m)) (AStr (strip is_space f)) excl = Ok r /\ (allow = true \/ r = true)) /\
   (forall b, body = Some b -> strip is_space b = m_body m)).
Proof. exact verify_general. Qed.
Print Assumptions C85_verify.
(** With failures listed by name and not tolerated: one of them is set. *)
Theorem C85_failures : forall m st sts f fs must x,
  lists is_blank st sts -> (forall n, In n sts -> In n (map fst PKI_STATUS)) ->
  lists is_space f fs -> (forall n, In n fs -> In n FAIL_NAMES) -> s_fail (m_info m) = Some x ->
  (verify_pkistatusinfo m None (Some st) (Some f) false must false = Ok tt <->
   In (m_body m) BODIES /\ (exists n, In n sts /\ In (n, s_status (m_info m)) PKI_STATUS) /\
   exists n, In n fs /\ named_set FAIL_NAMES x n).
Proof.
  intros m st sts f fs must x Hl Hin Hf Hfi Ex. rewrite (verify_general m None st sts (Some f) false must false Hl Hin).
  assert (fail_info (m_info m) = bits FAIL_NAMES x) as -> by (unfold fail_info, bits; rewrite Ex; reflexivity).
  pose proof (strip_lists_gen is_space is_space f fs within_space (sub_names _ _ fail_good Hfi) Hf) as Hf'.
  destruct (names_any FAIL_NAMES x (strip is_space f) fs fail_good Hf' Hfi) as (b & Eb & Hb). split.
  - intros (H1 & H2 & _ & H4 & _). split; [exact H1|]. split; [exact H2|]. destruct (H4 f eq_refl) as (r & Er & [Ha|Hr]); [discriminate|].
    apply Hb. congruence.
  - intros (H1 & H2 & H3). split; [exact H1|]. split; [exact H2|]. split; [intros _; rewrite Ex; discriminate|]. split; [|intros k; discriminate].
    intros f' Ef. injection Ef as <-. exists true. split; [|right; reflexivity]. rewrite Eb. f_equal. apply Hb, H3.
Qed.
Print Assumptions C85_failures.
(** Without status, failures mean a rejection. *)
Theorem C85_default_status : forall m body f excl must allow,
  verify_pkistatusinfo m body None (Some f) excl must allow = verify_pkistatusinfo m body (Some "rejection") (Some f) excl must allow.
Proof. exact verify_default. Qed.
Print Assumptions C85_default_status.
Definition rejected (x : option (list bool)) : smsg := {| m_body := "error"; m_info := {| s_status := 2; s_fail := x |} |}.
Example C85_verify_ex :
  verify_pkistatusinfo (rejected (Some (fail1 9))) (Some "error") (Some "rejection") (Some "badPOP, badAlg") false true false = Ok tt /\
  verify_pkistatusinfo (rejected (Some (fail1 9))) None None (Some "badAlg") false true false = Err EValueError /\
  verify_pkistatusinfo (rejected None) None (Some "rejection") None false true true = Err EValueError /\
  verify_pkistatusinfo (rejected None) (Some "ip") (Some "rejection") None false false true = Err EValueError.
Proof. repeat split. Qed.
(** Refuted: with the default options a wrong failure is noticed. *)
Theorem C85_default_refuted :
  ~ (forall x f fs, lists is_space f fs -> (forall n, In n fs -> In n FAIL_NAMES) ->
       verify_pkistatusinfo (rejected (Some x)) None (Some "rejection") (Some f) false false true = Ok tt ->
       exists n, In n fs /\ named_set FAIL_NAMES x n).
Proof.
  intros H. destruct (H (fail1 0) "badPOP" ["badPOP"] (lists_plain is_space ["badPOP"] ltac:(discriminate))
                        ltac:(intros n [<-|[]]; cbn [In FAIL_NAMES]; auto 12) eq_refl) as (n & [<-|[]] & i & Hi & Hs).
  destruct i as [|i]; [discriminate Hi|destruct i; discriminate Hs].
Qed.
Print Assumptions C85_default_refuted.

(** A revocation response passes its check iff it is one, accepted and without failure information. *)
Theorem C85_revocation : forall m, check_rp_body m = Ok tt <-> m_body m = "rp" /\ s_status (m_info m) = 0%Z /\ s_fail (m_info m) = None.
Proof. exact rp_exact. Qed.
Print Assumptions C85_revocation.
(** Refuted: a well-formed rejection passes it too. *)
Theorem C85_revocation_rejection_refuted :
  ~ (forall x, x <> [] -> check_rp_body {| m_body := "rp"; m_info := {| s_status := 2; s_fail := Some x |} |} = Ok tt).
Proof. intros H. specialize (H [true] ltac:(discriminate)). discriminate H. Qed.
Print Assumptions C85_revocation_rejection_refuted.

(** ** C86 *)
(** The usages of a request pass iff they fit its key; they are issued as requested, critical, and without trailing zeros. *)
Theorem C86_request : forall x key, has_rule key ->
  (usages_fit key x -> exists y, verify_key_usage (Some x) SOther (Some key) = Ok (Some (y, true)) /\
      (forall n, allows y n <-> allows x n) /\ (y = [] \/ exists z, y = (z ++ [true])%list)) /\
  (~ usages_fit key x -> verify_key_usage (Some x) SOther (Some key) = Err EBadCertTemplate).
Proof. exact verify_usage. Qed.
Print Assumptions C86_request.
Definition agree_only : list bool := [false; false; false; false; true; false; false; true; false].
Example C86_request_ex :
  verify_key_usage (Some [false; false; true; false; false]) SOther (Some RNamedKem) = Ok (Some ([false; false; true], true)) /\
  verify_key_usage (Some [true; false; true]) SOther (Some RNamedKem) = Err EBadCertTemplate /\
  verify_key_usage (Some [true; true]) SOther (Some (RTrad "ed25519")) = Ok (Some ([true; true], true)) /\
  verify_key_usage (Some [true; false; true]) SOther (Some (RTrad "ecdsa")) = Err EBadCertTemplate /\
  verify_key_usage (Some [true; false; true]) SOther (Some (RTrad "rsa")) = Ok (Some ([true; false; true], true)) /\
  verify_key_usage (Some [false; false; false; false; true]) SOther (Some (RTrad "x448")) = Ok (Some ([false; false; false; false; true], true)).
Proof. repeat split. Qed.
Theorem C86_request_other : forall x key, ~ has_rule key -> key <> RTrad "id_ecMQV" -> key <> RTrad "id_ecDH" ->
  verify_key_usage (Some x) SOther (Some key) = Err EValueError.
Proof. exact verify_no_rule. Qed.
Print Assumptions C86_request_other.
Theorem C86_request_none : forall alg key, verify_key_usage None alg key = Ok None.
Proof. reflexivity. Qed.
Print Assumptions C86_request_none.
(** Refuted: key agreement for encryption only (RFC 5480, RFC 8410) is granted. *)
Theorem C86_encipher_only_refuted :
  verify_key_usage (Some agree_only) SOther (Some (RTrad "x25519")) = Err EBadCertTemplate /\
  verify_key_usage (Some agree_only) SOther (Some (RTrad "ecdsa")) = Err EBadCertTemplate /\
  (forall n, allows agree_only n <-> n = "keyAgreement" \/ n = "encipherOnly").
Proof.
  split; [reflexivity|]. split; [reflexivity|]. intros n. split.
  - intros H. apply names_set_In in H. change (names_set KU_NAMES agree_only) with ["keyAgreement"; "encipherOnly"] in H.
    destruct H as [<-|[<-|[]]]; auto.
  - intros [->| ->]; [exists 4%nat|exists 7%nat]; split; reflexivity.
Qed.
Print Assumptions C86_encipher_only_refuted.
(** Refuted: requests for ECDH and ECMQV keys are checked; they are refused as unknown. *)
Theorem C86_ecdh_refuted : forall x alg n, alg <> SOther -> verify_key_usage (Some x) alg (Some (RTrad n)) = Err EValueError.
Proof. exact verify_ecdh. Qed.
Print Assumptions C86_ecdh_refuted.

(** The consistency of the extensions of a request. *)
Theorem C86_logic : forall x bc ee,
  let P := (ee = Some false -> ~ allows x "keyCertSign" /\ ~ allows x "cRLSign") /\
           (forall b, bc = Some b -> bc_ca b = false -> ~ allows x "keyCertSign") in
  (P -> check_logic_extensions (Some (Some x, bc)) ee = Ok tt) /\
  (~ P -> check_logic_extensions (Some (Some x, bc)) ee = Err EBadCertTemplate).
Proof. exact logic_usage. Qed.
Print Assumptions C86_logic.
Theorem C86_logic_basic : forall bc ee,
  check_logic_extensions (Some (None, bc)) ee = Ok tt <->
  (ee = Some true -> forall b, bc = Some b -> bc_ca b = false /\ (bc_path b = None \/ bc_path b = Some 0%Z)).
Proof.
  intros bc ee. unfold check_logic_extensions. destruct ee as [[]|]; [|split; [discriminate|reflexivity]|split; [discriminate|reflexivity]].
  destruct bc as [[ca p]|]; [|split; [intros _ _ b; discriminate|reflexivity]]. cbn [bc_ca bc_path]. split.
  - intros H _ b E. injection E as <-. cbn [bc_ca bc_path]. destruct ca; [discriminate|]. cbn [negb guard bind] in H. split; [reflexivity|].
    destruct p as [p|]; [|left; reflexivity]. destruct (Z.eqb_spec p 0); [subst; right; reflexivity|discriminate].
  - intros H. destruct (H eq_refl _ eq_refl) as [H1 H2]. cbn [bc_ca bc_path] in *. subst ca. cbn [negb guard bind]. destruct H2 as [->| ->]; reflexivity.
Qed.
Print Assumptions C86_logic_basic.
(** Refuted: an end entity cannot ask for certificate signing, a CA can. *)
Theorem C86_logic_refuted :
  check_logic_extensions (Some (Some ca_usage, None)) (Some true) = Ok tt /\
  (forall bc, check_logic_extensions (Some (Some ca_usage, bc)) (Some false) = Err EBadCertTemplate) /\
  allows ca_usage "keyCertSign".
Proof. split; [reflexivity|]. split; [reflexivity|]. exists 5%nat. split; reflexivity. Qed.
Print Assumptions C86_logic_refuted.

(** Certificates that sign others keep their usages if these include certificate signing, and get it if they have none. *)
Theorem C86_ensure : forall x,
  (allows x "keyCertSign" -> ensure_key_usage (Some x) = Ok x) /\
  (~ allows x "keyCertSign" -> ensure_key_usage (Some x) = Err EBadCertTemplate).
Proof. exact ensure_exact. Qed.
Print Assumptions C86_ensure.
Theorem C86_ensure_default : exists y, ensure_key_usage None = Ok y /\ (forall n, allows y n <-> In n ["keyCertSign"; "digitalSignature"]).
Proof.
  destruct (prepare_exact "keyCertSign,digitalSignature" ["keyCertSign"; "digitalSignature"] true) as (y & E & S).
  - apply (lists_plain is_space ["keyCertSign"; "digitalSignature"]). discriminate.
  - intros n [<-|[<-|[]]]; cbn [In KU_NAMES]; auto 9.
  - exists (y ++ [true])%list. unfold ensure_key_usage. rewrite E. split; [reflexivity|exact S].
Qed.
Print Assumptions C86_ensure_default.

(** Migration certificates: KEM keys exactly key encipherment. *)
Theorem C86_migration_kem : forall x,
  let P := forall n, allows x n <-> n = "keyEncipherment" in
  (P -> validate_migration_key_usage MKem (Some x) = Ok tt) /\
  (~ P -> validate_migration_key_usage MKem (Some x) = Err EValueError).
Proof. exact migration_kem. Qed.
Print Assumptions C86_migration_kem.
(** Refuted: signature keys with signature usages pass; every key usage extension is refused. *)
Theorem C86_migration_sig_refuted : forall x, validate_migration_key_usage MSig (Some x) = Err EValueError.
Proof. exact migration_sig. Qed.
Print Assumptions C86_migration_sig_refuted.

(** Related certificates: usages of the first that the second has pass. *)
Theorem C86_related : forall a b, k_eku a = None ->
  (forall x, k_usage a = Some x -> exists y, k_usage b = Some y /\ forall n, allows x n -> allows y n) ->
  validate_ku_and_eku_related_cert a b = Ok tt.
Proof. exact related_subset. Qed.
Print Assumptions C86_related.
Example C86_related_ex :
  validate_ku_and_eku_related_cert (with_usage (Some [true])) (with_usage (Some [true; true])) = Ok tt /\
  validate_ku_and_eku_related_cert (with_usage (Some [true; true])) (with_usage (Some [true])) = Err EValueError.
Proof. split; reflexivity. Qed.
(** Refuted: usages that the second lacks are noticed; the characters of the names are compared. *)
Theorem C86_related_refuted :
  ~ (forall x y, validate_ku_and_eku_related_cert (with_usage (Some x)) (with_usage (Some y)) = Ok tt -> forall n, allows x n -> allows y n).
Proof.
  intros H.
  assert (validate_ku_and_eku_related_cert (with_usage (Some (repeat false 7 ++ [true])%list)) (with_usage (Some (repeat false 8 ++ [true])%list)) = Ok tt) as A by reflexivity.
  specialize (H _ _ A "encipherOnly" ltac:(exists 7%nat; split; reflexivity)). apply names_set_In in H.
  change (names_set KU_NAMES (repeat false 8 ++ [true])) with ["decipherOnly"] in H. destruct H as [H|[]]. discriminate H.
Qed.
Print Assumptions C86_related_refuted.
(** Refuted: equal extended key usages pass; any such extension in the first is refused. *)
Theorem C86_related_eku_refuted : forall u o l b, validate_ku_and_eku_related_cert {| k_usage := u; k_eku := Some (o :: l) |} b = Err EValueError.
Proof. reflexivity. Qed.
Print Assumptions C86_related_eku_refuted.
(** Refuted: a related certificate without key usage is refused with a ValueError; it is an AttributeError. *)
Theorem C86_related_absent_refuted : forall x, validate_ku_and_eku_related_cert (with_usage (Some x)) (with_usage None) = Err EAttribute.
Proof. intros x. unfold validate_ku_and_eku_related_cert, with_usage, ku. cbn [k_eku k_usage bind]. rewrite get_names_eq. reflexivity. Qed.
Print Assumptions C86_related_absent_refuted.
