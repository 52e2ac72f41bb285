(** What the check of a signed PKIMessage is about, in plain words. *)
From Coq Require Import String.
From Verif Require Import Prelude PyStr HdrModel SgpModel.
Open Scope Z_scope.
Open Scope list_scope.

(** The certificate [c] verifies the protection of [m]; [pss]: with the padding of RSASSA-PSS. *)
Definition signed_by (L : lib) (m : msg) (c : cert) (pss : bool) : Prop :=
  exists sig data h, prot m = Some sig /\ s_encode L m = Ok data /\ s_hash L m = Ok h /\ s_verify L c data sig h pss = Ok tt.
(** The sender of a message that is signed with [c]: it is named in the certificate. *)
Definition sender_named (e : env) (m : msg) (c : cert) : Prop :=
  (exists n, h_sender (hdr m) = GDir n /\ n_der n = n_der (c_subject c)) \/
  (exists s, h_sender (hdr m) = GMail s /\ s = full_notation e (c_subject c)).
(** senderKID of a message that is signed with [c]: present, and the subject key identifier if the certificate has one. *)
Definition kid_fits (m : msg) (c : cert) : Prop :=
  exists k, h_kid (hdr m) = Some k /\ (c_ski c = None \/ c_ski c = Some k).
(** The sender is a name that can be compared with a certificate. *)
Definition comparable (g : gname) : Prop := (exists n, g = GDir n) \/ (exists s, g = GMail s).
(** A signature algorithm. *)
Definition signature_type (p : ptype) : Prop := p <> PMac /\ p <> PKem /\ p <> PUnknown.
