(** The bytes of a password (C88). *)
From Coq Require Import String Ascii Lia.
From Verif Require Import Prelude PreludeFacts PyStr CompLoadModel HdrModel ProtTab ProtModel ProtSpec ProtMac ProtMatchSpec.
Open Scope string_scope.
Open Scope Z_scope.

Definition all_ascii : list ascii := List.map ascii_of_nat (List.seq 0 256).
Lemma all_ascii_in : forall c, In c all_ascii.
Proof.
  intro c. unfold all_ascii. apply in_map_iff. exists (nat_of_ascii c). split; [apply ascii_nat_embedding|].
  apply in_seq. pose proof (nat_ascii_bounded c). lia.
Qed.
Definition chk_hex (c : ascii) : bool :=
  match hex_digit c with
  | None => negb (existsb (fun p => Ascii.eqb (fst p) c) hexits)
  | Some x => forallb (fun p => negb (Ascii.eqb (fst p) c) || (snd p =? x)) hexits && existsb (fun p => Ascii.eqb (fst p) c && (snd p =? x)) hexits
  end.
Lemma hex_digit_exact : forall c x, hex_digit c = Some x <-> In (c, x) hexits.
Proof.
  intros c x. assert (A : forallb chk_hex all_ascii = true) by (vm_compute; reflexivity).
  pose proof (proj1 (forallb_forall _ _) A _ (all_ascii_in c)) as C. unfold chk_hex in C. clear A. split.
  - intro H. rewrite H in C. apply andb_prop in C as (_ & C). apply existsb_exists in C as ([d y] & I & E). cbn [fst snd] in E.
    apply andb_prop in E as (E1 & E2). apply Ascii.eqb_eq in E1. apply Z.eqb_eq in E2. now subst.
  - intro I. destruct (hex_digit c) as [y|].
    + apply andb_prop in C as (C & _). pose proof (proj1 (forallb_forall _ _) C _ I) as E. cbn [fst snd] in E.
      rewrite Ascii.eqb_refl in E. cbn [negb orb] in E. apply Z.eqb_eq in E. congruence.
    + exfalso. apply negb_true_iff in C. assert (T : existsb (fun p => Ascii.eqb (fst p) c) hexits = true).
      { apply existsb_exists. exists (c, x). split; [exact I|]. apply Ascii.eqb_refl. }
      congruence.
Qed.
Lemma blank_exact : forall c, (((9 <=? zcode c) && (zcode c <=? 13)) || (zcode c =? 32) = true) <-> blank c.
Proof.
  intro c. unfold blank. rewrite orb_true_iff, andb_true_iff, !Z.leb_le, Z.eqb_eq. cbn [In]. lia.
Qed.
Lemma hexit_not_blank : forall c x, In (c, x) hexits -> ~ blank c.
Proof.
  intros c x I B. apply hex_digit_exact in I. unfold hex_digit in I. unfold blank in B. cbn [In] in B.
  destruct ((48 <=? zcode c) && (zcode c <=? 57)) eqn:E1; [apply andb_prop in E1 as (E & _); apply Z.leb_le in E; lia|].
  destruct ((65 <=? zcode c) && (zcode c <=? 70)) eqn:E2; [apply andb_prop in E2 as (E & _); apply Z.leb_le in E; lia|].
  destruct ((97 <=? zcode c) && (zcode c <=? 102)) eqn:E3; [apply andb_prop in E3 as (E & _); apply Z.leb_le in E; lia|discriminate].
Qed.
Lemma fromhex_exact : forall s b, fromhex_aux s None = Ok b <-> hex_of s b.
Proof.
  intros s b. split.
  - assert (G : forall s, (forall b, fromhex_aux s None = Ok b -> hex_of s b) /\
      (forall h b, fromhex_aux s (Some h) = Ok b -> exists d y r t, s = String d r /\ In (d, y) hexits /\ b = 16 * h + y :: t /\ hex_of r t)).
    { induction s0 as [|c r (IH1 & IH2)]; split.
      - intros b0 H. inversion H; constructor.
      - intros h b0 H. discriminate H.
      - intros b0 H. cbn [fromhex_aux] in H. destruct (((9 <=? zcode c) && (zcode c <=? 13)) || (zcode c =? 32)) eqn:E.
        + constructor; [now apply blank_exact|auto].
        + destruct (hex_digit c) as [d|] eqn:D; [|discriminate]. destruct (IH2 _ _ H) as (e & y & r' & t & -> & I & -> & HX).
          apply HX_byte; auto. now apply hex_digit_exact.
      - intros h b0 H. cbn [fromhex_aux] in H. destruct (hex_digit c) as [d|] eqn:D; [|discriminate].
        apply bind_inv in H as (t & T & H). exists c, d, r, t. repeat split; auto; [now apply hex_digit_exact|congruence]. }
    apply (proj1 (G s)).
  - intro H. induction H as [|c r b B H IH|c x d y r b I J H IH].
    + reflexivity.
    + cbn [fromhex_aux]. rewrite (proj2 (blank_exact c) B). exact IH.
    + cbn [fromhex_aux]. destruct (((9 <=? zcode c) && (zcode c <=? 13)) || (zcode c =? 32)) eqn:E.
      { exfalso. apply blank_exact in E. exact (hexit_not_blank _ _ I E). }
      rewrite (proj2 (hex_digit_exact c x) I), (proj2 (hex_digit_exact d y) J), IH. reflexivity.
Qed.
Lemma raw_exact : forall s, raw_bytes s = List.map zcode (list_ascii_of_string s).
Proof. induction s as [|c s IH]; [reflexivity|]. cbn [raw_bytes list_ascii_of_string List.map]. now rewrite IH. Qed.
Lemma prefix_0x : forall s, (exists r, s = "0x" ++ r) \/ (String.prefix "0x" s = false /\ str_to_bytes (SvStr s) = Ok (raw_bytes s)).
Proof.
  intros [|c [|d r]]; [right; split; reflexivity| |].
  - right. split; [cbn [String.prefix]; now destruct (ascii_dec "0" c)|]. destruct c as [[] [] [] [] [] [] [] []]; reflexivity.
  - destruct (Ascii.eqb_spec c "0"%char) as [->|N].
    + destruct (Ascii.eqb_spec d "x"%char) as [->|N]; [left; now exists r|]. right. split.
      * cbn [String.prefix]. destruct (ascii_dec "0" "0"); [|reflexivity]. destruct (ascii_dec "x" d); [congruence|reflexivity].
      * unfold str_to_bytes. destruct d as [[] [] [] [] [] [] [] []]; try reflexivity. now contradiction N.
    + right. split.
      * cbn [String.prefix]. destruct (ascii_dec "0" c); [congruence|reflexivity].
      * unfold str_to_bytes. destruct c as [[] [] [] [] [] [] [] []]; try reflexivity. now contradiction N.
Qed.
Theorem password_exact : forall v b, str_to_bytes v = Ok b <-> pw_bytes v b.
Proof.
  intros v b. split.
  - destruct v as [s|x]; [|intro H; inversion H; constructor]. destruct (prefix_0x s) as [(r & ->)|(P & E)].
    + intro H. constructor. apply fromhex_exact. exact H.
    + rewrite E. intro H. assert (b = raw_bytes s) by congruence. subst b. rewrite raw_exact. now constructor.
  - intro H. destruct H as [b|r b H|s P]; [reflexivity|now apply fromhex_exact|].
    destruct (prefix_0x s) as [(r & ->)|(_ & E)]; [|now rewrite E, raw_exact].
    exfalso. revert P. cbn [append String.prefix]. destruct (ascii_dec "0" "0"); [|congruence]. destruct (ascii_dec "x" "x"); [|congruence].
    destruct r; discriminate.
Qed.
