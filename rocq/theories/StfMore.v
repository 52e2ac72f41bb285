(** Changing signatures and keys; XMSS keys. *)
From Coq Require Import String Ascii Arith.
From Verif Require Import Prelude PreludeFacts StfModel StfSpec StfProofs StfHss.
Open Scope Z_scope.
Local Notation length := List.length.

Lemma nth_err_ext : forall A (a b : list A), (forall k, nth_error a k = nth_error b k) -> a = b.
Proof.
  induction a as [|x a IH]; intros [|y b] H; [reflexivity| | |].
  - specialize (H 0%nat). discriminate.
  - specialize (H 0%nat). discriminate.
  - pose proof (H 0%nat) as H0. simpl in H0. injection H0 as ->. f_equal. apply IH. intros k. exact (H (Datatypes.S k)).
Qed.

(** ** One changed byte *)
Lemma first_byte_diff : forall d m, HdrModel.manipulate_first_byte d = Ok m ->
  exists b c r, d = b :: r /\ m = c :: r /\ b <> c.
Proof.
  intros [|b r] m H; [discriminate|]. cbn [HdrModel.manipulate_first_byte] in H. injection H as <-.
  exists b, (if b =? 0 then 1 else 0), r. split; [reflexivity|]. split; [reflexivity|].
  destruct (b =? 0) eqn:E; [apply Z.eqb_eq in E|apply Z.eqb_neq in E]; lia.
Qed.
Lemma differ_at : forall p b c (r : bytes), b <> c -> differ_only_at (length p) (p ++ b :: r) (p ++ c :: r).
Proof.
  intros p b c r N. split; [rewrite !app_length; reflexivity|]. split; [rewrite app_length; simpl; lia|].
  intros k. destruct (Nat.lt_trichotomy k (length p)) as [H|[->|H]].
  - rewrite !nth_error_app1 by assumption. split; [lia|reflexivity].
  - rewrite !nth_error_app2 by lia. rewrite Nat.sub_diag. simpl. split; congruence.
  - rewrite !nth_error_app2 by lia. destruct (k - length p)%nat eqn:E; [lia|]. simpl. split; [lia|reflexivity].
Qed.
Lemma same_out : forall p a b (r : bytes), length a = length b -> same_outside (length p) (length p + length a) (p ++ a ++ r) (p ++ b ++ r).
Proof.
  intros p a b r H. split; [rewrite !app_length, H; reflexivity|]. intros k [K|K].
  - rewrite !nth_error_app1 by assumption. reflexivity.
  - rewrite !(nth_error_app2 p) by lia. rewrite !nth_error_app2 by lia. rewrite H. reflexivity.
Qed.

Lemma index_len_eq : forall x, index_len x = x_index_bytes x.
Proof. reflexivity. Qed.

Lemma manip_xmss : forall X x data index, manipulate_stateful X data (SXmss x) true index =
  match skipn (x_index_bytes x) data with
  | [] => Err EValueError
  | b :: r => Ok (firstn (x_index_bytes x) data ++ (if b =? 0 then 1 else 0) :: r)
  end.
Proof.
  intros X x data index. unfold manipulate_stateful. cbn [index_place bind]. rewrite index_len_eq, Nat.add_0_l.
  destruct (skipn (x_index_bytes x) data) as [|b r] eqn:E.
  - assert (HL : (length data <= x_index_bytes x)%nat) by (pose proof (f_equal (@List.length Z) E) as H; rewrite skipn_length in H; simpl in H; lia).
    destruct (length data <? x_index_bytes x)%nat eqn:C; [reflexivity|]. apply Nat.ltb_ge in C.
    replace (length data =? x_index_bytes x)%nat with true by (symmetry; apply Nat.eqb_eq; lia). reflexivity.
  - assert (HL : (x_index_bytes x < length data)%nat) by (pose proof (f_equal (@List.length Z) E) as H; rewrite skipn_length in H; simpl in H; lia).
    replace (length data <? x_index_bytes x)%nat with false by (symmetry; apply Nat.ltb_ge; lia).
    replace (length data =? x_index_bytes x)%nat with false by (symmetry; apply Nat.eqb_neq; lia).
    cbn [negb guard bind manipulate_payload HdrModel.manipulate_first_byte]. reflexivity.
Qed.

Lemma manip_xmss_sig : forall X x data out index, manipulate_stateful X data (SXmss x) true index = Ok out ->
  differ_only_at (x_index_bytes x) data out /\ firstn (x_index_bytes x) out = firstn (x_index_bytes x) data.
Proof.
  intros X x data out index H. rewrite manip_xmss in H. destruct (skipn (x_index_bytes x) data) as [|b r] eqn:E; [discriminate|].
  injection H as <-.
  assert (HL : length (firstn (x_index_bytes x) data) = x_index_bytes x).
  { rewrite firstn_length. assert (K : (x_index_bytes x < length data)%nat) by (pose proof (f_equal (@List.length Z) E) as H; rewrite skipn_length in H; simpl in H; lia). lia. }
  split.
  - rewrite <- HL at 1. rewrite <- (firstn_skipn (x_index_bytes x) data) at 2. rewrite E. apply differ_at.
    destruct (b =? 0) eqn:B; [apply Z.eqb_eq in B|apply Z.eqb_neq in B]; lia.
  - rewrite firstn_app, HL, Nat.sub_diag. simpl. rewrite app_nil_r. rewrite firstn_firstn, Nat.min_id. reflexivity.
Qed.
Lemma manip_xmss_total : forall X x data index, (x_index_bytes x < length data)%nat <->
  exists out, manipulate_stateful X data (SXmss x) true index = Ok out.
Proof.
  intros. rewrite manip_xmss. destruct (skipn (x_index_bytes x) data) as [|b r] eqn:E;
    pose proof (f_equal (@List.length Z) E) as HL; rewrite skipn_length in HL; simpl in HL.
  - split; [lia|]. intros [o H]. discriminate.
  - split; [intros _; eexists; reflexivity | intros _; lia].
Qed.
Lemma manip_xmss_index : forall X x data i, (x_index_bytes x <= length data)%nat ->
  manipulate_stateful X data (SXmss x) false (Some i) =
  if (0 <=? i) && (i <? 256 ^ Z.of_nat (x_index_bytes x)) then Ok (le (x_index_bytes x) i ++ skipn (x_index_bytes x) data)
  else Err EValueError.
Proof.
  intros X x data i HL. unfold manipulate_stateful. cbn [index_place bind]. rewrite index_len_eq, Nat.add_0_l.
  replace (length data <? x_index_bytes x)%nat with false by (symmetry; apply Nat.ltb_ge; lia). cbn [negb guard bind firstn app].
  destruct (i <? 0) eqn:E1; [apply Z.ltb_lt in E1; replace (0 <=? i) with false by (symmetry; apply Z.leb_gt; lia); reflexivity|].
  apply Z.ltb_ge in E1. replace (0 <=? i) with true by (symmetry; apply Z.leb_le; lia). cbn [negb guard bind andb].
  destruct (i <? 256 ^ Z.of_nat (x_index_bytes x)) eqn:E2.
  - apply Z.ltb_lt in E2. replace (256 ^ Z.of_nat (x_index_bytes x) - 1 <? i) with false by (symmetry; apply Z.ltb_ge; lia). reflexivity.
  - apply Z.ltb_ge in E2. replace (256 ^ Z.of_nat (x_index_bytes x) - 1 <? i) with true by (symmetry; apply Z.ltb_lt; lia). reflexivity.
Qed.
Lemma manip_xmss_index_read : forall X x data i out, (x_index_bytes x <= length data)%nat ->
  manipulate_stateful X data (SXmss x) false (Some i) = Ok out ->
  same_outside 0 (x_index_bytes x) data out /\ from_be (firstn (x_index_bytes x) out) = swapped (x_index_bytes x) i.
Proof.
  intros X x data i out HL H. rewrite manip_xmss_index in H by assumption. destruct (_ && _); [|discriminate]. injection H as <-. split.
  - rewrite <- (firstn_skipn (x_index_bytes x) data) at 1.
    pose proof (same_out [] (firstn (x_index_bytes x) data) (le (x_index_bytes x) i) (skipn (x_index_bytes x) data)) as S0.
    rewrite firstn_length, le_len in S0. simpl in S0. rewrite Nat.min_l in S0 by lia. exact (S0 eq_refl).
  - rewrite firstn_app, le_len, Nat.sub_diag. simpl. rewrite app_nil_r. rewrite firstn_all2 by (rewrite le_len; lia). reflexivity.
Qed.

(** ** HSS signatures *)
Lemma place_hss : forall s levels, valid_set s -> 1 <= levels ->
  index_place (SHss (set_name s) levels) =
  Ok (Z.to_nat (4 + (levels - 1) * (d_sig_len (spec_details s) + d_pub_len (spec_details s))), 4%nat, Some (spec_details s)).
Proof.
  intros s levels V H. unfold index_place. rewrite (hss_details_ok s V). cbn [of_opt bind].
  replace (levels <? 1) with false by (symmetry; apply Z.ltb_ge; lia). cbn [negb guard bind].
  replace (Z.max 0 (levels - 1)) with (levels - 1) by lia. reflexivity.
Qed.
Definition front (g : hss_sig) : bytes :=
  be 4 (Z.of_nat (length (h_ups g))) ++ concat (map (fun p => sig_wire (fst p) ++ pub_wire (snd p)) (h_ups g)).
Definition tail_bytes (g : hss_sig) : bytes := be 4 (lms_code (s_set (h_last g))) ++ s_path (h_last g).
Lemma wire_split : forall g, hss_wire g =
  front g ++ be 4 (s_q (h_last g)) ++ (be 4 (ots_code (s_set (h_last g))) ++ s_ots (h_last g)) ++ tail_bytes g.
Proof. intros. unfold hss_wire, front, tail_bytes, sig_wire. rewrite <- !app_assoc. reflexivity. Qed.
Lemma front_len : forall s g, wf_hss g -> uniform s g ->
  length (front g) = Z.to_nat (4 + (levels_of g - 1) * (d_sig_len (spec_details s) + d_pub_len (spec_details s))).
Proof.
  intros s g [HL [H1 H2]] [U1 U2]. apply Nat2Z.inj. unfold front. rewrite app_length, be_len, Nat2Z.inj_add, (ups_len s) by assumption.
  unfold levels_of. replace (Z.of_nat (length (h_ups g)) + 1 - 1) with (Z.of_nat (length (h_ups g))) by lia.
  rewrite Z2Nat.id; [reflexivity|]. rewrite <- U2. destruct H2 as [V2 _]. pose proof (chain_pos _ V2). pose proof (set_pos _ V2).
  change (d_sig_len (spec_details (s_set (h_last g)))) with
    (4 + (4 + ls_n (s_set (h_last g)) * (chain_count (s_set (h_last g)) + 1)) + 4 + ls_h (s_set (h_last g)) * ls_n (s_set (h_last g))).
  change (d_pub_len (spec_details (s_set (h_last g)))) with (8 + 16 + ls_n (s_set (h_last g))). nia.
Qed.
Lemma firstn_app_exact : forall A (a b : list A) k, length a = k -> firstn k (a ++ b) = a.
Proof. intros A a b k <-. rewrite firstn_app, Nat.sub_diag. simpl. rewrite app_nil_r. apply firstn_all. Qed.
Lemma skipn_app_exact : forall A (a b : list A) k, length a = k -> skipn k (a ++ b) = b.
Proof. intros A a b k <-. rewrite skipn_app, Nat.sub_diag, skipn_all. reflexivity. Qed.

Lemma ots_code_tab : forallb (fun s => (0 <? ots_code s) && (ots_code s <? 256)) ots_sets = true.
Proof. vm_compute. reflexivity. Qed.
Lemma ots_code_range : forall s, valid_set s -> 0 < ots_code s < 256.
Proof.
  intros s V. pose proof ots_code_tab as T. rewrite forallb_forall in T. specialize (T _ (in_ots s V)).
  change (ots_code (with_h 5 s)) with (ots_code s) in T. apply andb_true_iff in T. destruct T as [T1 T2].
  apply Z.ltb_lt in T1. apply Z.ltb_lt in T2. lia.
Qed.
Lemma be4_small : forall c, 0 <= c < 256 -> be 4 c = [0; 0; 0; c] /\ be 4 (2 ^ 24 + c) = [1; 0; 0; c].
Proof.
  intros c H. change (2 ^ 24) with 16777216. unfold be. cbn [le rev app]. 
  rewrite (Z.div_small c 256) by lia. rewrite (Z.mod_small c 256) by lia. split; [reflexivity|].
  replace (16777216 + c) with (c + 65536 * 256) by lia. rewrite Z_mod_plus_full, Z_div_plus_full by lia.
  rewrite (Z.mod_small c 256), (Z.div_small c 256) by lia. reflexivity.
Qed.

Lemma manip_hss_sig : forall X s g index, wf_hss g -> uniform s g ->
  manipulate_stateful X (hss_wire g) (SHss (set_name s) (levels_of g)) true index = Ok (wire_with_type (2 ^ 24 + ots_code s) g).
Proof.
  intros X s g index W U. assert (V : valid_set s) by (destruct U as [_ <-]; destruct W as [_ [_ [V _]]]; exact V).
  unfold manipulate_stateful. rewrite place_hss by (try exact V; unfold levels_of; lia). cbn [bind].
  rewrite <- (front_len s g W U). rewrite (wire_split g).
  assert (US : s_set (h_last g) = s) by apply U. pose proof (ots_code_range s V) as RC.
  destruct (be4_small (ots_code s) ltac:(lia)) as [B1 B2].
  assert (HO : length (s_ots (h_last g)) = nlen (ls_n s * (chain_count s + 1))) by (destruct W as [_ [_ [_ [_ [H _]]]]]; rewrite US in H; exact H).
  rewrite US, B1.
  set (F := front g). set (Q := be 4 (s_q (h_last g))). set (T := tail_bytes g). set (O := s_ots (h_last g)) in *.
  assert (HQ : length Q = 4%nat) by apply be_len.
  assert (HFQ : length (F ++ Q) = (length F + 4)%nat) by (rewrite app_length, HQ; reflexivity).
  set (C := [0; 0; 0; ots_code s]). assert (HC : length C = 4%nat) by reflexivity.
  replace (F ++ Q ++ (C ++ O) ++ T) with ((F ++ Q) ++ ((C ++ O) ++ T)) by (rewrite <- app_assoc; reflexivity).
  rewrite (app_length (F ++ Q)), HFQ.
  replace (length F + 4 + length ((C ++ O) ++ T) <? length F + 4)%nat with false by (symmetry; apply Nat.ltb_ge; lia).
  replace (length F + 4 + length ((C ++ O) ++ T) =? length F + 4)%nat with false
    by (symmetry; apply Nat.eqb_neq; rewrite !app_length, HC; lia).
  cbn [negb guard bind]. rewrite (skipn_app_exact _ _ _ _ HFQ), (firstn_app_exact _ _ _ _ HFQ).
  unfold manipulate_payload. rewrite (hss_details_ok s V). cbn [of_opt bind].
  assert (HD : Z.to_nat (d_ots_len (spec_details s)) = length (C ++ O)).
  { rewrite app_length, HO, HC. unfold nlen. change (d_ots_len (spec_details s)) with (4 + ls_n s * (chain_count s + 1)).
    pose proof (chain_pos _ V). pose proof (set_pos _ V). rewrite Z2Nat.inj_add by nia. reflexivity. }
  replace (Z.of_nat (length ((C ++ O) ++ T)) <? d_ots_len (spec_details s)) with false.
  2:{ symmetry. apply Z.ltb_ge. rewrite app_length, <- HD. change (d_ots_len (spec_details s)) with (4 + ls_n s * (chain_count s + 1)).
      pose proof (chain_pos _ V). pose proof (set_pos _ V). rewrite Nat2Z.inj_add, Z2Nat.id by nia. lia. }
  cbn [negb guard bind]. rewrite HD, (firstn_app_exact _ _ _ _ eq_refl), (skipn_app_exact _ _ _ _ eq_refl).
  subst C. cbn [app HdrModel.manipulate_first_byte Z.eqb bind]. unfold wire_with_type. rewrite B2, US. f_equal.
  unfold F, Q, T, O, front, tail_bytes. rewrite <- !app_assoc, US. reflexivity.
Qed.

Lemma wire_with_type_differs : forall s g, wf_hss g -> uniform s g ->
  differ_only_at (length (hss_wire g) - length (sig_wire (h_last g)) + 4) (hss_wire g) (wire_with_type (2 ^ 24 + ots_code s) g).
Proof.
  intros s g W U. assert (V : valid_set s) by (destruct U as [_ <-]; destruct W as [_ [_ [V _]]]; exact V).
  assert (EL : (length (hss_wire g) - length (sig_wire (h_last g)) + 4 = length (front g ++ be 4 (s_q (h_last g))))%nat).
  { unfold hss_wire. fold (front g). rewrite app_assoc. fold (front g). rewrite !(app_length (front g)), be_len. lia. }
  rewrite EL. destruct (be4_small (ots_code s) ltac:(pose proof (ots_code_range s V); lia)) as [B1 B2].
  assert (E2 : wire_with_type (2 ^ 24 + ots_code s) g = (front g ++ be 4 (s_q (h_last g))) ++ 1 :: ([0; 0; ots_code s] ++ s_ots (h_last g)) ++ tail_bytes g).
  { unfold wire_with_type. rewrite B2. unfold front, tail_bytes. rewrite <- !app_assoc. reflexivity. }
  assert (E1 : hss_wire g = (front g ++ be 4 (s_q (h_last g))) ++ 0 :: ([0; 0; ots_code s] ++ s_ots (h_last g)) ++ tail_bytes g).
  { rewrite (wire_split g). destruct U as [_ ->]. rewrite B1. rewrite <- !app_assoc. reflexivity. }
  rewrite E1, E2. apply differ_at. discriminate.
Qed.
Lemma unregistered_tab : forallb (fun s => match name_by_code lmots_codes (be 4 (2 ^ 24 + ots_code s)) with None => true | _ => false end) ots_sets = true.
Proof. vm_compute. reflexivity. Qed.

Lemma be4_swap : forall i, 0 <= i < 2 ^ 32 -> le 4 i = be 4 (swapped 4 i).
Proof.
  intros i H. unfold swapped. rewrite <- (le_len 4 i) at 2. rewrite be_from_be; [reflexivity | apply le_bytes].
Qed.
Lemma swapped_range : forall k i, 0 <= swapped k i < 256 ^ Z.of_nat k.
Proof. intros. unfold swapped. pose proof (from_be_range (le k i) (le_bytes k i)) as R. rewrite le_len in R. exact R. Qed.

Lemma manip_hss_index : forall X s g i, wf_hss g -> uniform s g ->
  manipulate_stateful X (hss_wire g) (SHss (set_name s) (levels_of g)) false (Some i) =
  if (0 <=? i) && (i <? 2 ^ 32) then Ok (hss_wire (with_leaf (swapped 4 i) g)) else Err EValueError.
Proof.
  intros X s g i W U. assert (V : valid_set s) by (destruct U as [_ <-]; destruct W as [_ [_ [V _]]]; exact V).
  unfold manipulate_stateful. rewrite place_hss by (try exact V; unfold levels_of; lia). cbn [bind].
  rewrite <- (front_len s g W U). rewrite (wire_split g).
  set (F := front g). set (Q := be 4 (s_q (h_last g))). set (R := (be 4 (ots_code (s_set (h_last g))) ++ s_ots (h_last g)) ++ tail_bytes g).
  assert (HQ : length Q = 4%nat) by apply be_len.
  assert (HFQ : length (F ++ Q) = (length F + 4)%nat) by (rewrite app_length, HQ; reflexivity).
  replace (length (F ++ Q ++ R) <? length F + 4)%nat with false by (symmetry; apply Nat.ltb_ge; rewrite !app_length, HQ; lia).
  cbn [negb guard bind]. change (256 ^ Z.of_nat 4) with (2 ^ 32).
  destruct (i <? 0) eqn:E1; [apply Z.ltb_lt in E1; replace (0 <=? i) with false by (symmetry; apply Z.leb_gt; lia); reflexivity|].
  apply Z.ltb_ge in E1. replace (0 <=? i) with true by (symmetry; apply Z.leb_le; lia). cbn [negb guard bind andb].
  destruct (i <? 2 ^ 32) eqn:E2.
  - apply Z.ltb_lt in E2. replace (2 ^ 32 - 1 <? i) with false by (symmetry; apply Z.ltb_ge; lia). cbn [negb guard bind].
    rewrite (firstn_app_exact _ F _ _ eq_refl). rewrite (app_assoc F Q R), (skipn_app_exact _ (F ++ Q) R _ HFQ).
    rewrite be4_swap by lia. rewrite (wire_split (with_leaf (swapped 4 i) g)). reflexivity.
  - apply Z.ltb_ge in E2. replace (2 ^ 32 - 1 <? i) with true by (symmetry; apply Z.ltb_lt; lia). reflexivity.
Qed.
Lemma manip_hss_default : forall X s g, wf_hss g -> uniform s g ->
  manipulate_stateful X (hss_wire g) (SHss (set_name s) (levels_of g)) false None = Ok (hss_wire (with_leaf (swapped 4 (2 ^ ls_h s)) g)).
Proof.
  intros X s g W U. assert (V : valid_set s) by (destruct U as [_ <-]; destruct W as [_ [_ [V _]]]; exact V).
  pose proof (manip_hss_index X s g (2 ^ ls_h s) W U) as E. unfold manipulate_stateful in *.
  rewrite place_hss in * by (try exact V; unfold levels_of; lia). cbn [bind] in *. change (d_max (spec_details s)) with (2 ^ ls_h s).
  rewrite E. replace ((0 <=? 2 ^ ls_h s) && (2 ^ ls_h s <? 2 ^ 32)) with true; [reflexivity|]. symmetry. apply andb_true_iff.
  destruct V as [_ [_ V]]. simpl in V. destruct V as [<-|[<-|[<-|[<-|[<-|[]]]]]]; split; reflexivity.
Qed.
Lemma with_leaf_wf : forall q g, 0 <= q < 2 ^ 32 -> wf_hss g -> wf_hss (with_leaf q g).
Proof. intros q g Hq [H1 [H2 [V [_ H3]]]]. split; [exact H1|]. split; [exact H2|]. split; [exact V|]. split; [exact Hq | exact H3]. Qed.

Lemma default_leaf : forall h, In h [5; 10; 15; 20; 25] ->
  swapped 4 (2 ^ h) = if h =? 5 then 2 ^ 29 else if h =? 10 then 2 ^ 18 else if h =? 15 then 2 ^ 23 else if h =? 20 then 2 ^ 12 else 2.
Proof. intros h H. simpl in H. destruct H as [<-|[<-|[<-|[<-|[<-|[]]]]]]; vm_compute; reflexivity. Qed.

(** ** XMSS tables *)
Lemma xmss_ids_len : length xmss_ids = 21%nat. Proof. vm_compute. reflexivity. Qed.
Lemma xhash_eq : forall a b, xhash_beq a b = true <-> a = b.
Proof. intros [] []; split; intros; try reflexivity; discriminate. Qed.
Lemma xset_eqb_eq : forall a b, xset_eqb a b = true <-> a = b.
Proof.
  intros [h1 a1 d1 b1] [h2 a2 d2 b2]. unfold xset_eqb. simpl. rewrite !andb_true_iff, xhash_eq, !Z.eqb_eq. split; [intuition congruence | intros E; injection E; auto].
Qed.
Definition all_xmss : list xset := map snd xmss_ids.
Definition all_mt : list xset := map snd xmssmt_ids.
Lemma in_xmss : forall x, xmss_set x <-> In x all_xmss.
Proof.
  intros x. split.
  - intros [H1 [H2 H3]]. destruct x as [a h d b]. simpl in H1, H2, H3. subst d.
    repeat (destruct H2 as [<-|H2]; [|]); try contradiction;
    repeat (destruct H3 as [E|H3]; [injection E as <- <-; vm_compute; tauto|]); contradiction.
  - intros I. apply in_map_iff in I. destruct I as [p [<- I]].
    assert (T : forallb (fun p => (xs_d (snd p) =? 0) && existsb (Z.eqb (xs_h (snd p))) [10; 16; 20] &&
      existsb (fun q => xhash_beq (xs_hash (snd p)) (fst q) && (xs_bits (snd p) =? snd q))
       [(Sha2, 192); (Sha2, 256); (Sha2, 512); (ShakeP, 256); (ShakeP, 512); (Shake256P, 192); (Shake256P, 256)]) xmss_ids = true)
      by (vm_compute; reflexivity).
    rewrite forallb_forall in T. specialize (T p I). apply andb_true_iff in T. destruct T as [T T3]. apply andb_true_iff in T. destruct T as [T1 T2].
    split; [apply Z.eqb_eq; exact T1|]. split.
    + apply existsb_exists in T2. destruct T2 as [y [I2 E]]. apply Z.eqb_eq in E. rewrite E. exact I2.
    + apply existsb_exists in T3. destruct T3 as [[y z] [I3 E]]. apply andb_true_iff in E. destruct E as [E1 E2].
      apply xhash_eq in E1. apply Z.eqb_eq in E2. simpl in E1, E2. rewrite E1, E2. exact I3.
Qed.
Lemma in_mt : forall x, mt_set x <-> In x all_mt.
Proof.
  intros x. split.
  - intros [H2 H3]. destruct x as [a h d b]. cbn [xs_h xs_d xs_hash xs_bits] in H2, H3.
    assert (T : forallb (fun p => forallb (fun q => existsb (xset_eqb {| xs_hash := fst q; xs_h := fst p; xs_d := snd p; xs_bits := snd q |}) all_mt)
        [(Sha2, 192); (Sha2, 256); (Sha2, 512); (ShakeP, 256); (ShakeP, 512); (Shake256P, 192); (Shake256P, 256)])
      [(20, 2); (20, 4); (40, 2); (40, 4); (40, 8); (60, 3); (60, 6); (60, 12)] = true) by (vm_compute; reflexivity).
    rewrite forallb_forall in T. specialize (T _ H2). rewrite forallb_forall in T. specialize (T _ H3).
    apply existsb_exists in T. destruct T as [y [I E]]. apply xset_eqb_eq in E. cbn [fst snd] in E. rewrite E. exact I.
  - intros I. apply in_map_iff in I. destruct I as [p [<- I]].
    assert (T : forallb (fun p => existsb (fun q => (xs_h (snd p) =? fst q) && (xs_d (snd p) =? snd q)) [(20, 2); (20, 4); (40, 2); (40, 4); (40, 8); (60, 3); (60, 6); (60, 12)] &&
      existsb (fun q => xhash_beq (xs_hash (snd p)) (fst q) && (xs_bits (snd p) =? snd q))
       [(Sha2, 192); (Sha2, 256); (Sha2, 512); (ShakeP, 256); (ShakeP, 512); (Shake256P, 192); (Shake256P, 256)]) xmssmt_ids = true)
      by (vm_compute; reflexivity).
    rewrite forallb_forall in T. specialize (T p I). apply andb_true_iff in T. destruct T as [T2 T3].
    split.
    + apply existsb_exists in T2. destruct T2 as [[y z] [I2 E]]. apply andb_true_iff in E. destruct E as [E1 E2].
      apply Z.eqb_eq in E1. apply Z.eqb_eq in E2. cbn [fst snd] in E1, E2. rewrite E1, E2. exact I2.
    + apply existsb_exists in T3. destruct T3 as [[y z] [I3 E]]. apply andb_true_iff in E. destruct E as [E1 E2].
      apply xhash_eq in E1. apply Z.eqb_eq in E2. cbn [fst snd] in E1, E2. rewrite E1, E2. exact I3.
Qed.
Lemma mt_details_exact : forall x, mt_set x -> (in_mt_details x = true <-> mt_known x).
Proof.
  intros x M. pose proof M as M'. apply in_mt in M'.
  assert (T : forallb (fun x => Bool.eqb (in_mt_details x)
     (((xs_bits x =? 256) || (xs_bits x =? 512)) && negb (xhash_beq (xs_hash x) Shake256P))) all_mt = true) by (vm_compute; reflexivity).
  rewrite forallb_forall in T. specialize (T x M'). apply Bool.eqb_prop in T. rewrite T. unfold mt_known.
  rewrite andb_true_iff, orb_true_iff, !Z.eqb_eq, negb_true_iff. rewrite <- not_true_iff_false, xhash_eq. tauto.
Qed.

(** Identifier numbers: a value names at most one set, and every set has one. *)
Lemma id_some : forall l i x, id_lookup l i = Some x -> In (i, x) l.
Proof.
  unfold id_lookup. intros l i x H. destruct (find _ l) as [p|] eqn:E; [|discriminate]. injection H as <-.
  apply find_some in E. destruct E as [I E]. apply Z.eqb_eq in E. subst i. destruct p. exact I.
Qed.
Lemma xmss_id_of : forall x, xmss_set x -> exists i, id_lookup xmss_ids i = Some x /\ 1 <= i <= 21.
Proof.
  intros x H. apply in_xmss in H. unfold all_xmss in H. apply in_map_iff in H. destruct H as [[i y] [<- I]].
  assert (T : forallb (fun p => match id_lookup xmss_ids (fst p) with Some z => xset_eqb z (snd p) | None => false end && (1 <=? fst p) && (fst p <=? 21)) xmss_ids = true) by (vm_compute; reflexivity).
  rewrite forallb_forall in T. specialize (T _ I). cbn [fst snd] in *. apply andb_true_iff in T. destruct T as [T T3]. apply andb_true_iff in T. destruct T as [T1 T2].
  apply Z.leb_le in T2. apply Z.leb_le in T3. exists i. split; [|lia].
  destruct (id_lookup xmss_ids i); [|discriminate]. apply xset_eqb_eq in T1. subst. reflexivity.
Qed.
Lemma mt_id_of : forall x, mt_set x -> exists i, id_lookup xmssmt_ids i = Some x /\ 1 <= i <= 56.
Proof.
  intros x H. apply in_mt in H. unfold all_mt in H. apply in_map_iff in H. destruct H as [[i y] [<- I]].
  assert (T : forallb (fun p => match id_lookup xmssmt_ids (fst p) with Some z => xset_eqb z (snd p) | None => false end && (1 <=? fst p) && (fst p <=? 56)) xmssmt_ids = true) by (vm_compute; reflexivity).
  rewrite forallb_forall in T. specialize (T _ I). cbn [fst snd] in *. apply andb_true_iff in T. destruct T as [T T3]. apply andb_true_iff in T. destruct T as [T1 T2].
  apply Z.leb_le in T2. apply Z.leb_le in T3. exists i. split; [|lia].
  destruct (id_lookup xmssmt_ids i); [|discriminate]. apply xset_eqb_eq in T1. subst. reflexivity.
Qed.

(** ** Secret keys *)
Lemma slice_at : forall (a m b : bytes) i k, length a = i -> length m = (k - i)%nat -> (i <= k)%nat -> slice i k (a ++ m ++ b) = m.
Proof.
  intros a m b i k H1 H2 H3. unfold slice. rewrite (skipn_app_exact _ _ _ _ H1). apply firstn_app_exact. exact H2.
Qed.
Lemma xmss_pk : forall x oid idx ss sp v1 v2 rest, xs_d x = 0 -> length oid = 4%nat -> length idx = 4%nat ->
  length ss = out_len x -> length sp = out_len x -> length v1 = out_len x -> length v2 = out_len x ->
  sk_to_pk x (xmss_secret x oid idx ss sp v1 v2 rest) = Ok (oid ++ v1 ++ v2).
Proof.
  intros x oid idx ss sp v1 v2 rest D H1 H2 H3 H4 H5 H6. unfold sk_to_pk, xmss_secret. rewrite D, Z.eqb_refl.
  set (n := out_len x) in *. cbv zeta. f_equal. f_equal; [|f_equal].
  - apply (slice_at [] oid). { reflexivity. } { rewrite H1; reflexivity. } lia.
  - replace (oid ++ idx ++ ss ++ sp ++ v1 ++ v2 ++ rest) with ((oid ++ idx ++ ss ++ sp) ++ v1 ++ (v2 ++ rest)) by (rewrite <- !app_assoc; reflexivity).
    apply slice_at; [rewrite !app_length; lia | lia | lia].
  - replace (oid ++ idx ++ ss ++ sp ++ v1 ++ v2 ++ rest) with ((oid ++ idx ++ ss ++ sp ++ v1) ++ v2 ++ rest) by (rewrite <- !app_assoc; reflexivity).
    apply slice_at; [rewrite !app_length; lia | lia | lia].
Qed.
Lemma mt_pk : forall x oid idx ss sp v1 v2 rest, mt_known x -> length oid = 4%nat -> length idx = x_index_bytes x ->
  length ss = out_len x -> length sp = out_len x -> length v1 = out_len x -> length v2 = out_len x ->
  sk_to_pk x (xmss_secret x oid idx ss sp v1 v2 rest) = Ok (oid ++ v1 ++ v2).
Proof.
  intros x oid idx ss sp v1 v2 rest M H1 H2 H3 H4 H5 H6. unfold sk_to_pk, xmss_secret.
  assert (D : (xs_d x =? 0) = false).
  { apply Z.eqb_neq. destruct M as [[M _] _]. intros E. simpl in M. intuition congruence. }
  unfold x_index_bytes in H2. rewrite D in *. rewrite (proj2 (mt_details_exact x (proj1 M)) M). cbn [guard bind].
  assert (HK : (3 <= ceil8 (xs_h x))%nat).
  { destruct M as [[M _] _]. simpl in M. destruct M as [E|[E|[E|[E|[E|[E|[E|[E|[]]]]]]]]]; injection E as <- _; vm_compute; lia. }
  set (n := out_len x) in *. cbv zeta. change (Z.to_nat ((xs_h x + 7) / 8)) with (ceil8 (xs_h x)) in H2. set (c := ceil8 (xs_h x)) in *.
  replace (Z.to_nat (Z.of_nat (8 + 2 * n) + (Z.of_nat c - 4))) with (4 + c + 2 * n)%nat by lia.
  replace (Z.to_nat (Z.of_nat (8 + 3 * n) + (Z.of_nat c - 4))) with (4 + c + 3 * n)%nat by lia.
  f_equal. f_equal; [|f_equal].
  - apply (slice_at [] oid). { reflexivity. } { rewrite H1; reflexivity. } lia.
  - replace (oid ++ idx ++ ss ++ sp ++ v1 ++ v2 ++ rest) with ((oid ++ idx ++ ss ++ sp) ++ v1 ++ (v2 ++ rest)) by (rewrite <- !app_assoc; reflexivity).
    apply slice_at; [rewrite !app_length; lia | lia | lia].
  - replace (oid ++ idx ++ ss ++ sp ++ v1 ++ v2 ++ rest) with ((oid ++ idx ++ ss ++ sp ++ v1) ++ v2 ++ rest) by (rewrite <- !app_assoc; reflexivity).
    apply slice_at; [rewrite !app_length; lia | lia | lia].
Qed.

(** ** Changing the index of an XMSS key *)
Lemma modify_exact : forall X K P oid idx rest i, xk_raw K = oid ++ idx ++ rest -> length oid = 4%nat -> length idx = x_index_bytes (xk_set K) ->
  length (xk_raw K) = xl_sec X (xk_set K) -> x_public_key X K = Ok P ->
  modify_xmss X K false (Some i) false =
  if (0 <=? i) && (i <? 256 ^ Z.of_nat (x_index_bytes (xk_set K)))
  then Ok {| xk_set := xk_set K; xk_raw := oid ++ be (x_index_bytes (xk_set K)) i ++ rest; xk_pub := Some (xp_raw P); xk_used := [] |}
  else Err EOverflow.
Proof.
  intros X K P oid idx rest i R H1 H2 HL HP. unfold modify_xmss. cbn [get_index]. rewrite index_len_eq. unfold to_be.
  destruct ((0 <=? i) && (i <? 256 ^ Z.of_nat (x_index_bytes (xk_set K)))); [|reflexivity]. cbn [bind]. rewrite HP. cbn [bind].
  rewrite R in *. rewrite (firstn_app_exact _ oid _ _ H1).
  rewrite (app_assoc oid idx rest), (skipn_app_exact _ (oid ++ idx) rest) by (rewrite app_length; lia).
  unfold x_private.
  assert (E : length (oid ++ be (x_index_bytes (xk_set K)) i ++ rest) = xl_sec X (xk_set K)).
  { rewrite <- HL, !app_length, be_len, H2. reflexivity. }
  rewrite E, Nat.eqb_refl. reflexivity.
Qed.
Lemma modify_default : forall X K last, modify_xmss X K last None false = modify_xmss X K false (Some (xl_total X (xk_set K))) false.
Proof. reflexivity. Qed.
Lemma modify_last : forall X K i, modify_xmss X K true (Some i) false = modify_xmss X K false (Some (xl_total X (xk_set K) - 1)) false.
Proof. reflexivity. Qed.

Lemma public_same : forall X K P set raw, x_public_key X K = Ok P -> xk_set K = set ->
  x_public_key X {| xk_set := set; xk_raw := raw; xk_pub := Some (xp_raw P); xk_used := [] |} = Ok P.
Proof.
  intros X K P set raw H <-. unfold x_public_key in *. cbn [xk_pub xk_set bind].
  destruct (match xk_pub K with Some b => Ok b | None => sk_to_pk (xk_set K) (xk_raw K) end) as [b|]; cbn [bind] in H; [|discriminate].
  destruct (xs_d (xk_set K) =? 0).
  - unfold xmss_public in *. destruct (guard (length b =? xmss_key_size (xk_set K))%nat EInvalidKeyData) as [[]|] eqn:G; cbn [bind] in H; [|discriminate].
    injection H as <-. cbn [xp_raw]. rewrite G. reflexivity.
  - unfold mt_public in *. destruct (guard (length b =? xl_pub X (xk_set K))%nat EInvalidKeyData) as [[]|] eqn:G; cbn [bind] in H; [|discriminate].
    injection H as <-. cbn [xp_raw]. rewrite G. reflexivity.
Qed.

(** ** HSS private keys *)
Lemma py_index_0 : forall A (x : A) l, py_index (x :: l) 0 = Ok x.
Proof. intros. unfold py_index. change (0 <? 0) with false. cbv iota. replace (0 <? Z.of_nat (length (x :: l))) with true by (symmetry; apply Z.ltb_lt; simpl length; lia). reflexivity. Qed.

Lemma load_state : forall L ss st, keeps_keys L -> wf_state ss st ->
  exists s r, ss = s :: r /\
  hss_from_private_bytes L (hl_ser L st) = Ok {| hk_name := set_name s; hk_state := st; hk_used := [] |}.
Proof.
  intros L ss st [R _] W. pose proof (R ss st W) as E. destruct W as [HL [HB [HV HF]]]. destruct st as [lv trees]. cbn [fst snd] in *.
  destruct HF as [|s t r ts Ht HF]; [simpl in HB; lia|]. exists s, r. split; [reflexivity|].
  assert (V : valid_set s) by (inversion HV; assumption).
  unfold hss_from_private_bytes, hss_private. rewrite E. cbn [of_opt bind]. rewrite py_index_0. cbn [bind].
  destruct Ht as [T1 [T2 _]]. rewrite T1, T2.
  assert (B : build_hss_name_from_codes (be 4 (lms_code s)) (be 4 (ots_code s)) = Ok (set_name s)) by (apply build_name; exists s; auto).
  rewrite B. cbn [bind]. rewrite (hss_name_set s V), (hss_details_ok s V). cbn [of_opt bind].
  assert (Hlv : (lv =? 0) = false) by (apply Z.eqb_neq; simpl length in HB, HL; lia).
  rewrite Hlv, Z.eqb_refl. cbn [guard bind]. rewrite ?B. cbn [bind]. rewrite String.eqb_refl. reflexivity.
Qed.

Lemma capacity_pos : forall ss, Forall valid_set ss -> 1 <= capacity ss.
Proof.
  induction ss as [|s ss IH]; intros H; simpl capacity; [lia|]. inversion H; subst. specialize (IH ltac:(assumption)).
  assert (1 <= 2 ^ ls_h s) by (pose proof (Z.pow_pos_nonneg 2 (ls_h s) ltac:(lia) ltac:(pose proof (set_pos s ltac:(assumption)); lia)); lia).
  unfold capacity in *. nia.
Qed.
Lemma root_wf : forall s r st q, wf_state (s :: r) st -> 0 <= q <= 2 ^ ls_h s -> wf_state (s :: r) (fst st, root_at q (snd st)).
Proof.
  intros s r [lv trees] q [HL [HB [HV HF]]] Hq. cbn [fst snd] in *. inversion HF as [|? t ? ts Ht HT]; subst. cbn [root_at].
  split; [reflexivity|]. split; [exact HB|]. split; [exact HV|]. constructor; [|exact HT].
  destruct Ht as [T1 [T2 [T3 T4]]]. split; [exact T1|]. split; [exact T2|]. split; [exact Hq | exact T4].
Qed.
Lemma spent_forall : forall ss ts, Forall valid_set ss -> Forall2 tree_of ss ts -> Forall2 tree_of ss (all_spent ss ts).
Proof.
  induction 2 as [|s t ss ts Ht HF IH]; [constructor|]. inversion H; subst. constructor; [|apply IH; assumption].
  destruct Ht as [T1 [T2 [T3 T4]]]. split; [exact T1|]. split; [exact T2|]. split; [|exact T4]. cbn [set_q t_q fst].
  pose proof (Z.pow_pos_nonneg 2 (ls_h s) ltac:(lia) ltac:(pose proof (set_pos s ltac:(assumption)); lia)). simpl. lia.
Qed.
Lemma spent_wf : forall ss st, wf_state ss st -> wf_state ss (fst st, all_spent ss (snd st)).
Proof.
  intros ss [lv trees] [HL [HB [HV HF]]]. cbn [fst snd] in *.
  assert (EL : length (all_spent ss trees) = length trees).
  { unfold all_spent. rewrite map_length, combine_length, (Forall2_len _ _ _ HF). lia. }
  split; [cbn [fst snd]; rewrite EL; exact HL|]. split; [cbn [snd]; rewrite EL; exact HB|]. split; [exact HV|]. apply spent_forall; assumption.
Qed.
Lemma spent_map : forall L ss ts, keeps_keys L -> Forall valid_set ss -> Forall2 tree_of ss ts ->
  map (fun t => set_q (hl_tree_max L t) t) ts = all_spent ss ts.
Proof.
  intros L ss ts [_ [_ K]] HV HF. induction HF as [|s t ss ts Ht HF IH]; [reflexivity|]. inversion HV; subst.
  cbn [map all_spent combine fst snd]. rewrite (K s t ltac:(assumption) Ht). f_equal. apply IH. assumption.
Qed.

Lemma modify_hss_exact : forall L K s r i, keeps_keys L -> wf_state (s :: r) (hk_state K) -> 0 <= i ->
  (i < capacity (s :: r) -> i <= 2 ^ ls_h s) ->
  modify_hss L K false (Some i) false =
  Ok {| hk_name := set_name s; hk_used := [];
        hk_state := (fst (hk_state K), if i <? capacity (s :: r) then root_at i (snd (hk_state K)) else all_spent (s :: r) (snd (hk_state K))) |}.
Proof.
  intros L K s r i KK W Hi HI. unfold modify_hss. destruct (load_state L _ _ KK W) as [s' [r' [E LE]]]. injection E as <- <-.
  rewrite LE. cbn [bind hk_state]. destruct (hk_state K) as [lv trees] eqn:EK.
  assert (HM : hl_max L (lv, trees) = capacity (s :: r)) by (destruct KK as [_ [M _]]; apply M; exact W).
  pose proof W as [HL [HB [HV HF]]]. cbn [fst snd] in HL, HB, HF.
  rewrite HM. cbn [fst snd]. destruct (i <? capacity (s :: r)) eqn:C.
  - apply Z.ltb_lt in C. replace (i >=? capacity (s :: r)) with false by (symmetry; rewrite Z.geb_leb; apply Z.leb_gt; lia).
    replace (0 <? lv) with true by (symmetry; apply Z.ltb_lt; lia).
    pose proof (root_wf s r (lv, trees) i W ltac:(specialize (HI C); lia)) as W'. cbn [fst snd] in W'.
    destruct (load_state L _ _ KK W') as [s' [r' [E LE']]]. injection E as <- <-. exact LE'.
  - apply Z.ltb_ge in C. replace (i >=? capacity (s :: r)) with true by (symmetry; rewrite Z.geb_leb; apply Z.leb_le; lia).
    rewrite (spent_map L (s :: r) trees KK HV HF). pose proof (spent_wf _ _ W) as W'. cbn [fst snd] in W'.
    destruct (load_state L _ _ KK W') as [s' [r' [E LE']]]. injection E as <- <-. exact LE'.
Qed.
Lemma modify_hss_default : forall L K ss last, keeps_keys L -> wf_state ss (hk_state K) ->
  modify_hss L K last None false = modify_hss L K false (Some (capacity ss)) false.
Proof.
  intros L K ss last KK W. unfold modify_hss. destruct (load_state L _ _ KK W) as [s' [r' [E LE]]].
  rewrite LE. cbn [bind hk_state]. destruct (hk_state K) as [lv trees] eqn:EK.
  assert (HM : hl_max L (lv, trees) = capacity ss) by (destruct KK as [_ [M _]]; apply M; exact W).
  rewrite HM. reflexivity.
Qed.
Lemma modify_hss_used : forall L K index b, pick_used (hk_used K) index = Ok b ->
  modify_hss L K false index true = hss_from_private_bytes L b.
Proof. intros L K index b H. unfold modify_hss. rewrite H. reflexivity. Qed.
