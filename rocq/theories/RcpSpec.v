(** What recipient infos and the encrypted key of a proof of possession are about, in plain words. *)
From Coq Require Import String.
From Verif Require Import Prelude PyStr RcpModel.
Open Scope string_scope.
Open Scope Z_scope.
Open Scope list_scope.

(** [u r]: the content encryption key that the recipient takes out of [r].  The single functions wrap what they are given. *)
Definition faithful (L : lib) (u : rinfo -> option bytes) : Prop :=
  (forall k c ce ia ri oa b, b_ktri L k c ce ia ri oa = Ok b -> u (RKtri b) = Some c) /\
  (forall k p c ce ia ri og b, b_kari L k p c ce ia ri og = Ok b -> u (RKari b) = Some c) /\
  (forall k c ce ia ri kd b, b_kem L k c ce ia ri kd = Ok b -> u (ROri "id_ori_kem" b) = Some c) /\
  (forall pw c s kd b, b_pw L pw c s kd = Ok b -> u (RPwri b) = Some c).
(** The recipient of one of the infos opens the content: [dec k c] is the decryption of [c]. *)
Definition opens (u : rinfo -> option bytes) (dec : bytes -> bytes -> option bytes) (e : envelope) (data : bytes) : Prop :=
  forall r, In r (v_infos e) -> exists k, u r = Some k /\ dec k (v_content e) = Some data.
(** Decryption with the key of the encryption gives the data back. *)
Definition correct (L : lib) (dec : bytes -> bytes -> option bytes) : Prop :=
  forall k d c, b_content L k d = Ok c -> dec k c = Some d.
(** RFC 5652, section 6.1, for one recipient info: 3 with pwri or ori; 2 with kari. *)
Definition rfc_version (r : rinfo) (v : Z) : Prop :=
  match r with RPwri _ | ROri _ _ => v = 3 | RKari _ => v = 2 | RKtri _ => v = 0 \/ v = 2 | RKek _ => v = 2 end.
(** The kind of recipient info for a key. *)
Inductive kind_for : option pub -> option bytes -> option bytes -> rinfo -> Prop :=
| for_rsa k p w b : kind_for (Some (PRsa k)) p w (RKtri b)
| for_ecdh k p w b : kind_for (Some (PEcdh k)) (Some p) w (RKari b)
| for_kem k p w b : kind_for (Some (PKem k)) p w (ROri "id_ori_kem" b)
| for_other k p w b : kind_for (Some (POther k)) p (Some w) (RPwri b)
| for_none p w b : kind_for None p (Some w) (RPwri b).
