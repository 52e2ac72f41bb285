(** Vocabulary of the property of centrally generated keys (C120). *)
From Coq Require Import String.
From Verif Require Import Prelude CertChainModel BitModel BitSpec SdModel SdSpec KgaModel.
From Verif Require EnvlModel EnvlSpec.
Open Scope Z_scope.

(** The EnvelopedData and the certificate of the response at the position. *)
Definition sent (m : kmsg) (i : nat) (v : EnvlModel.env) : Prop :=
  exists l c, q_pairs m = Some l /\ nth_error l i = Some (Some {| f_cert := c; f_key := EnvKey v |}).
Definition issued (m : kmsg) (i : nat) (c : cert) : Prop :=
  exists l v, q_pairs m = Some l /\ nth_error l i = Some (Some {| f_cert := Some c; f_key := v |}).
(** What the receiver has to open it. *)
Definition receiver (Y : klib) (m : kmsg) (z : wants) (c : cert) : EnvlModel.given :=
  {| EnvlModel.i_msg := Some (as_env Y m); EnvlModel.i_pw := z_pw z; EnvlModel.i_cert := Some (y_view Y c); EnvlModel.i_kari := None;
     EnvlModel.i_key := z_key z; EnvlModel.i_pop := false; EnvlModel.i_null := false; EnvlModel.i_salt := None |}.
(** The EnvelopedData of `size` recipients is opened at the position: by a password that protects the message, by a KEM key, or
    with the key of the first recipient. *)
Definition opened (Y : klib) (m : kmsg) (z : wants) (c : cert) (v : EnvlModel.env) (data : bytes) : Prop :=
  let L := y_env Y in
  let at_ i r := EnvlSpec.recipient v (z_size z) i r in
  match z_type z with
  | EnvlModel.AName EnvlModel.NPwri =>
      exists r p s cek, at_ (z_index z) (EnvlModel.Pwri r) /\ z_pw z = Some p
        /\ EnvlSpec.protection_salt L (Some (as_env Y m)) None s /\ EnvlSpec.pwri_yields L r s p cek
        /\ EnvlSpec.content_opens L (EnvlModel.v_content v) cek false data /\ EnvlModel.l_verify L (as_env Y m) p = Ok tt
  | EnvlModel.AKemri =>
      exists k o x r cek, z_key z = Some k /\ EnvlModel.s_kind k = EnvlModel.KKem o /\ at_ (z_index z) (EnvlModel.Ori EnvlModel.ORI_KEM x)
        /\ EnvlModel.l_kemdec L x = Some (r, nil) /\ EnvlSpec.kemri_yields L r (Some (y_view Y c)) false false k cek
        /\ EnvlSpec.content_opens L (EnvlModel.v_content v) cek false data
  | t =>
      exists r r0 cek, at_ (z_index z) r /\ EnvlSpec.expects t r /\ at_ O r0 /\ EnvlSpec.yields L (receiver Y m z c) r0 cek
        /\ EnvlSpec.content_opens L (EnvlModel.v_content v) cek false data
  end.
(** The kind of recipient goes with the protection: a password that protects the message; a key agreement certificate. *)
Definition proper (Y : klib) (m : kmsg) (z : wants) (c : cert) (r : EnvlModel.recip) : Prop :=
  match r with
  | EnvlModel.Ktri _ | EnvlModel.Ori _ _ => True
  | EnvlModel.Kari _ => exists bits, k_usage (l_usages (y_sd Y) c) = Some bits /\ allows bits "keyAgreement"
  | EnvlModel.Pwri _ => exists p, z_pw z = Some p /\ EnvlModel.l_verify (y_env Y) (as_env Y m) p = Ok tt
  | EnvlModel.Kekri => False
  end.
(** The response yields the key. *)
Definition delivers (Y : klib) (m : kmsg) (z : wants) (dir os : list cert) (k : key) : Prop :=
  q_pvno m = 3
  /\ exists c v data d r i,
       nth_error (q_extra m) (z_cert z) = Some c /\ sent m (z_index z) v /\ opened Y m z c v data
       /\ y_signed Y data = Some (d, nil) /\ accepted (y_sd Y) d (z_size z) (z_index z) dir os (z_save z) k
       /\ nth_error (EnvlModel.v_recips v) (z_index z) = Some r /\ proper Y m z c r
       /\ issued m (z_index z) i /\ y_pub Y i = Ok (k_pub k).
