(** Proofs about the check of a signed PKIMessage. *)
From Coq Require Import String Lia.
From Verif Require Import Prelude PreludeFacts PyStr ProtMac GenModel GenProofs ChamProofs HdrModel SgpModel SgpSpec.
Open Scope Z_scope.
Open Scope list_scope.

Lemma find_zero v c l : find_pos v (c :: l) = Ok (Some O) <-> v c = Ok tt.
Proof.
  cbn [find_pos]. destruct (v c) as [[]|e]; [tauto|]. split; [|discriminate]. intros H. exfalso.
  destruct e; try discriminate; apply bind_inv in H; destruct H as ([o|] & _ & H); discriminate.
Qed.
Lemma sender_iff e m p c l allow : h_palg (hdr m) = Some p -> signature_type p -> certs m = Some (c :: l) ->
  (check_sender_cmp_protection e m true allow = Ok tt <-> prot m <> None /\ comparable (h_sender (hdr m)) /\ (allow = true \/ sender_named e m c)).
Proof.
  intros P (T1 & T2 & T3) Ce. unfold check_sender_cmp_protection, check_is_protection_present, get_protection_type, first_cert. rewrite P, Ce.
  destruct (prot m) as [s|]; [|cbn; split; [discriminate | intros (N & _); congruence]].
  cbn [bind is_value negb].
  assert (E : (match p with PUnknown => Err EUnknownOID | p0 => Ok p0 end) = Ok p) by (destruct p; congruence || reflexivity). rewrite E. cbn [bind].
  assert (F : is_mac_or_kem p = false) by (destruct p; congruence || reflexivity). rewrite F.
  unfold comparable, sender_named. destruct (h_sender (hdr m)) as [n|t|t|k b]; cbn [compare_general_name_and_name bind].
  - destruct (bytes_eqb (n_der n) (n_der (c_subject c))) eqn:B.
    + apply bytes_eqb_iff in B. split; [|reflexivity]. intros _. split; [discriminate|]. split; [left; eauto|]. right. left. eauto.
    + destruct allow.
      * split; [|reflexivity]. intros _. split; [discriminate|]. split; [left; eauto | now left].
      * split; [discriminate|]. intros (_ & _ & [D|[(n' & N & D)|(s' & N & D)]]); try discriminate. injection N as <-. apply bytes_eqb_iff in D. congruence.
  - destruct (String.eqb (full_notation e (c_subject c)) t) eqn:B.
    + apply String.eqb_eq in B. split; [|reflexivity]. intros _. split; [discriminate|]. split; [right; eauto|]. right. right. eauto.
    + destruct allow.
      * split; [|reflexivity]. intros _. split; [discriminate|]. split; [right; eauto | now left].
      * split; [discriminate|]. intros (_ & _ & [D|[(n' & N & D)|(s' & N & D)]]); try discriminate. injection N as <-. subst t. rewrite String.eqb_refl in B. discriminate.
  - split; [discriminate|]. intros (_ & [(n & N)|(n & N)] & _); discriminate.
  - split; [discriminate|]. intros (_ & [(n & N)|(n & N)] & _); discriminate.
Qed.
Lemma kid_iff e m p c l : h_palg (hdr m) = Some p -> signature_type p -> certs m = Some (c :: l) -> prot m <> None ->
  (validate_senderkid e m None true false = Ok tt <-> kid_fits m c).
Proof.
  intros P (T1 & T2 & T3) Ce Pr. unfold validate_senderkid, check_is_protection_present, get_protection_type, first_cert. rewrite P, Ce.
  destruct (prot m) as [s|]; [|congruence]. cbn [bind negb]. unfold kid_fits.
  destruct (h_kid (hdr m)) as [k|]; [|cbn; split; [discriminate | intros (k & K & _); discriminate]]. cbn [is_value guard bind].
  assert (E : (match p with PUnknown => Err EUnknownOID | p0 => Ok p0 end) = Ok p) by (destruct p; congruence || reflexivity). rewrite E. cbn [bind octets].
  assert (F : is_mac_or_kem p = false) by (destruct p; congruence || reflexivity). rewrite F.
  destruct (c_ski c) as [x|].
  - split.
    + intros H. exists k. split; [reflexivity|]. right. destruct (bytes_eqb x k) eqn:B; [apply bytes_eqb_iff in B; now subst | discriminate].
    + intros (k' & K & [D|D]); [discriminate|]. injection K as <-. injection D as ->. now rewrite (proj2 (bytes_eqb_iff k k) eq_refl).
  - split; [|reflexivity]. intros _. eauto.
Qed.
Lemma signed_iff L e m p c l allow kid : h_palg (hdr m) = Some p -> signature_type p -> certs m = Some (c :: l) ->
  (check_signed L e m allow kid = Ok tt <->
   s_known L m = Ok true /\ s_algfield L m = Ok tt /\ comparable (h_sender (hdr m)) /\ (allow = true \/ sender_named e m c) /\ (kid = true -> kid_fits m c) /\
   signed_by L m c false /\ s_protection L m = Ok tt).
Proof.
  intros P T Ce. unfold check_signed. rewrite Ce. unfold signed_by. split.
  - intros H. apply bind_inv in H. destruct H as (sig & Sg & H). apply bind_inv in H. destruct H as (data & D & H). apply bind_inv in H. destruct H as (b & K & H).
    apply bind_inv in H. destruct H as ([] & G & H). apply bind_inv in H. destruct H as ([] & A & H). apply bind_inv in H. destruct H as ([] & Sn & H).
    apply bind_inv in H. destruct H as ([] & Kd & H). apply bind_inv in H. destruct H as (h & Hh & H). apply bind_inv in H. destruct H as (o & F & H).
    destruct o as [[|n]|]; try discriminate. apply find_zero in F.
    destruct b; [|discriminate]. destruct (prot m) as [s|] eqn:Pm; [|discriminate]. injection Sg as <-.
    apply (sender_iff e m p c l allow P T Ce) in Sn. destruct Sn as (_ & Sc & Sn).
    split; [exact K|]. split; [exact A|]. split; [exact Sc|]. split; [exact Sn|]. split.
    + intros ->. apply (kid_iff e m p c l P T Ce) in Kd; [exact Kd | rewrite Pm; discriminate].
    + split; [|exact H]. exists s, data, h. auto.
  - intros (K & A & Sc & Sn & Kd & (sig & data & h & Pm & D & Hh & V) & Pr). rewrite Pm, D, K. cbn [octets bind guard]. rewrite A. cbn [bind].
    assert (Np : prot m <> None) by (rewrite Pm; discriminate).
    rewrite (proj2 (sender_iff e m p c l allow P T Ce)) by auto. cbn [bind].
    assert (E : (if kid then validate_senderkid e m None true false else Ok tt) = Ok tt).
    { destruct kid; [|reflexivity]. apply (kid_iff e m p c l P T Ce Np). auto. }
    rewrite E. cbn [bind]. rewrite Hh. cbn [bind]. rewrite (proj2 (find_zero (with_cert L data sig h) c l) V). cbn [bind]. exact Pr.
Qed.
Lemma signed_needs L e m allow kid : check_signed L e m allow kid = Ok tt -> exists c l, certs m = Some (c :: l) /\ signed_by L m c false /\ s_known L m = Ok true /\ s_protection L m = Ok tt.
Proof.
  unfold check_signed. intros H. apply bind_inv in H. destruct H as (sig & Sg & H). apply bind_inv in H. destruct H as (data & D & H). apply bind_inv in H. destruct H as (b & K & H).
  apply bind_inv in H. destruct H as ([] & G & H). destruct (certs m) as [l|]; [|discriminate]. apply bind_inv in H. destruct H as ([] & A & H). apply bind_inv in H. destruct H as ([] & Sn & H).
  apply bind_inv in H. destruct H as ([] & Kd & H). apply bind_inv in H. destruct H as (h & Hh & H). apply bind_inv in H. destruct H as (o & F & H).
  destruct o as [[|n]|]; try discriminate. destruct l as [|c l]; [discriminate|]. apply find_zero in F. exists c, l. split; [reflexivity|].
  destruct b; [|discriminate]. destruct (prot m) as [s|] eqn:Pm; [|discriminate]. injection Sg as <-. split; [exists s, data, h; auto | auto].
Qed.
