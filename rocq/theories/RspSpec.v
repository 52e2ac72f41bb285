(** Statement vocabulary for responses (C154 to C156). *)
From Coq Require Import String.
From Verif Require Import Prelude GenModel RspModel.
Open Scope string_scope.
Open Scope Z_scope.
Open Scope list_scope.
Local Notation length := List.length.

(** The response [i] has a [certifiedKeyPair] [k]. *)
Definition pair_at (m : rmsg) (i : nat) (k : pair) : Prop := exists r, nth_error (b_resps m) i = Some r /\ p_pair r = Some k.
Definition certified (m : rmsg) (i : nat) (c : cert) : Prop := exists k, pair_at m i k /\ k_cert k = Plain c.
Definition encrypted (m : rmsg) (i : nat) (e : bool) : Prop := exists k, pair_at m i k /\ k_cert k = Enc e.
Definition no_pair (m : rmsg) (i : nat) : Prop := forall k, pair_at m i k -> k_cert k = Gone.
Definition with_key (m : rmsg) (i : nat) (e : bool) : Prop := exists k, pair_at m i k /\ k_priv k = Some e.
Definition without_key (m : rmsg) (i : nat) : Prop := forall k, pair_at m i k -> k_priv k = None.

Definition response_body (m : rmsg) : Prop := b_name m = "ip" \/ b_name m = "cp" \/ b_name m = "kup" \/ b_name m = "ccp".

(** The private key is there iff the CA made it, in EnvelopedData in version 3 only. *)
Definition key_fits (m : rmsg) (local : bool) (i : nat) : Prop :=
  if local then without_key m i else exists e, with_key m i e /\ (e = true -> b_pvno m = 3).

(** The certificates in [caPubs] are trust anchors, and a chain of the certificate with them is valid. *)
Definition pubs_fit (L : lib) (m : rmsg) (c : cert) : Prop :=
  forall ps, b_pubs m = Some ps -> b_name m <> "kup" /\ l_anchors L ps = Ok tt /\
  exists ch, l_chain L c (ps ++ b_extra m) = Ok ch /\ length ch <> 1%nat /\ l_openssl L ch = Ok tt.

(** The first response as the check of [caPubs] needs it. *)
Definition first_fits (L : lib) (m : rmsg) : Prop :=
  (no_pair m 0 /\ b_pubs m = None) \/ exists c, certified m 0 c /\ pubs_fit L m c.

Definition granted (s : string) : Prop := s = "accepted" \/ s = "grantedWithMods".

(** A message with another body type, and with another status in the response [i]. *)
Definition with_name (n : string) (m : rmsg) : rmsg :=
  {| b_name := n; b_pvno := b_pvno m; b_resps := b_resps m; b_pubs := b_pubs m; b_extra := b_extra m |}.
Definition with_status (m m' : rmsg) (i : nat) : Prop :=
  b_name m' = b_name m /\ b_pvno m' = b_pvno m /\ b_pubs m' = b_pubs m /\ b_extra m' = b_extra m /\ length (b_resps m') = length (b_resps m) /\
  (forall j, j <> i -> nth_error (b_resps m') j = nth_error (b_resps m) j) /\
  forall r, nth_error (b_resps m) i = Some r -> exists r', nth_error (b_resps m') i = Some r' /\ p_id r' = p_id r /\ p_pair r' = p_pair r.
