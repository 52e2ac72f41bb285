(** Statement vocabulary for challenges (C149 to C152) and the out-of-band hash (C153). *)
From Coq Require Import String.
From Verif Require Import Prelude GenModel GenSpec ChlModel.
Open Scope string_scope.
Open Scope Z_scope.
Open Scope list_scope.
Local Notation length := List.length.

(** The version fits: encrypted values in version 3 and no other kind, only plain challenges in version 2. *)
Definition versioned (m : cmsg) : Prop :=
  (m_pvno m = 3 /\ (exists c, In c (m_chals m) /\ c_env c <> None) /\ (forall c, In c (m_chals m) -> c_val c = [])) \/
  (m_pvno m = 2 /\ forall c, In c (m_chals m) -> c_env c = None).

(** A recipient is named by the NULL-DN and the identifier of the request. *)
Definition named_by (x : recip) (issuer : bytes) (serial : Z) : Prop :=
  x = Ktri (RSerial issuer serial) \/ x = Kemri (Some (RSerial issuer serial)) \/
  exists r, x = Kari (RSerial issuer serial :: r).
Definition addressed (L : lib) (v : envd) (ri : nat) (id : Z) : Prop :=
  exists x n, nth_error (v_recips v) ri = Some x /\ named_by x n id /\ l_null L n = true.

(** The CA's key for the key agreement: that of the given certificate, or the first of the right type among the first
    two extra certificates, all before it being readable. *)
Definition partner (L : lib) (m : cmsg) (t : string) (kc : option cert) (p : pub) : Prop :=
  match kc with
  | Some c => l_load L c = Ok p /\ exists t' k, p = PDh t' k
  | None =>
      exists c r, m_extra m = c :: r /\
      ((exists k, l_load L c = Ok p /\ p = PDh t k) \/
       (exists p' d r' k, l_load L c = Ok p' /\ (forall k', p' <> PDh t k') /\ r = d :: r' /\ l_load L d = Ok p /\ p = PDh t k))
  end.

(** What the end entity finds in a challenge. *)
Definition finds (L : lib) (m : cmsg) (k : priv) (c : chal) (iv : bytes) (ri : nat) (id : Z) (kc : option cert) (r : rand) : Prop :=
  match c_env c with
  | Some v => addressed L v ri id /\ exists b, l_open L m v k kc = Ok b /\ reads (l_rand L) b r
  | None =>
      match k with
      | SRsa s => exists b, l_rsa_dec L s (c_val c) = Ok b /\ reads (l_rand L) b r
      | SDh t s => exists p ss dk b, partner L m t kc p /\ l_dh L k p = Ok ss /\ l_derive L ss = Ok dk /\
                     l_unaes L dk iv (c_val c) = Ok b /\ reads (l_rand L) b r
      | SKem s => exists ss b, l_decaps L s None = Ok ss /\ l_unaes L ss iv (c_val c) = Ok b /\ reads (l_rand L) b r
      | SOther _ => False
      end
  end.

(** The end entity's key opens what the CA closes for its public key. *)
Definition opens (L : lib) (m : cmsg) (k : pub) (ca : option priv) (sk : priv) (kc : option cert) : Prop :=
  match k, sk with
  | PRsa p, SRsa s => forall d e, l_rsa_enc L p d = Ok e -> l_rsa_dec L s e = Ok d
  | PDh _ _, SDh t s => exists p, partner L m t kc p /\ forall c ss, ca = Some c -> l_dh L c k = Ok ss -> l_dh L sk p = Ok ss
  | _, _ => False
  end.
Definition aes_ok (L : lib) : Prop := forall k iv d e, l_aes L k iv d = Ok e -> l_unaes L k iv e = Ok d.
(** The same for [EnvelopedData]. *)
Definition unseals (L : lib) (m : cmsg) (k : pub) (ca : option priv) (sk : priv) (kc : option cert) : Prop :=
  forall id d v, l_seal L k ca id d = Ok v -> addressed L v 0 id /\ l_open L m v sk kc = Ok d.

(** The message that carries one challenge. *)
Definition carries (m : cmsg) (pv : Z) (x : chal) (t s r : bytes) : Prop :=
  m_body m = "popdecc" /\ m_pvno m = pv /\ m_chals m = [x] /\ m_tx m = Some t /\ m_sn m = Some s /\ m_rn m = Some r.

(** The number is the value of four bytes, most significant first. *)
Definition value (b : bytes) : Z := fold_left (fun a x => 256 * a + x) b 0.
Definition four (b : bytes) (n : Z) : Prop := length b = 4%nat /\ is_bytes b = true /\ value b = n.

(** Subject and issuer alternative names of a CA certificate without a name. *)
Definition alt_names_equal (c : ca_cert) : Prop := exists x, o_san c = Some x /\ o_ian c = Some x.

(** The CA's own key for a key agreement, by the type of the requested key, and what the Mock CA uses. *)
Definition own (F : conf) (t : string) (ca : option priv) : Prop :=
  (t = "X448" /\ ca = f_x448 F) \/ (t = "X25519" /\ ca = f_x25519 F) \/ (t <> "X448" /\ t <> "X25519" /\ ca = f_ec F).
Definition uses (F : conf) (p : string) (k : pub) (ca : option priv) : Prop :=
  (p = "keyEncipherment" /\ ca = None /\ ((exists r, k = PRsa r) \/ exists r, k = PKem r)) \/
  (p = "keyAgreement" /\ exists t r, k = PDh t r /\ own F t ca) \/
  (p <> "keyEncipherment" /\ p <> "keyAgreement" /\ ca = None).

(** A challenge with another witness, and a message with other challenges. *)
Definition reward (o : option bytes) (w : bytes) (c : chal) : chal := {| c_owf := o; c_wit := w; c_val := c_val c; c_env := c_env c |}.
Definition with_chals (m : cmsg) (l : list chal) : cmsg :=
  {| m_body := m_body m; m_pvno := m_pvno m; m_chals := l; m_extra := m_extra m; m_kem := m_kem m; m_tx := m_tx m; m_sn := m_sn m; m_rn := m_rn m |}.
