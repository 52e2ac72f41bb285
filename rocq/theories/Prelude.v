(** Shared vocabulary of all models: byte strings, Python exceptions as values. *)
From Coq Require Export List Bool ZArith Lia.
Export ListNotations.

(** A Python [bytes] object: a list of integers.  Functions that need each
    element to be in [0,255] say so with [is_bytes]. *)
Definition bytes := list Z.

Definition is_byte (b : Z) : bool := (0 <=? b)%Z && (b <? 256)%Z.
Definition is_bytes (l : bytes) : bool := forallb is_byte l.

Fixpoint bytes_eqb (a b : bytes) : bool :=
  match a, b with
  | [], [] => true
  | x :: a', y :: b' => (x =? y)%Z && bytes_eqb a' b'
  | _, _ => false
  end.

(** Exception classes raised by the modelled code
    (resources/exceptions.py lines 15-384 and Python built-ins). *)
Inductive exn :=
| EValueError | ETypeError | EKeyError | EIndexError | ENotImplemented
| ERuntimeError | EException | EAssertion
| EInvalidSignature            (* cryptography.exceptions.InvalidSignature *)
| EBadConfig | EBadAlg | EBadSigAlgID | EBadMessageCheck | EBadRequest | EBadTime | EBadCertId
| EBadDataFormat | EBadAsn1Data | EWrongAuthority | EBadPOP | ECertRevoked
| ECertConfirmed | EWrongIntegrity | EBadRecipientNonce
| EAddInfoNotAvailable | EBadSenderNonce | EBadCertTemplate
| ESignerNotTrusted | ETransactionIdInUse | EUnsupportedVersion
| ENotAuthorized | EDuplicateCertReq | EBodyRelevant
| EInvalidKeyCombination | EInvalidKeyData | ELwCMPViolation | EUnknownOID
| ESystemFailure | EBadKeyUsage | EPyAsn1 | ECMPTestSuite
| EMismatchingKey | EInvalidAltSignature | EOverflow | EAttribute | EStopIteration | EUnicode | EZeroDiv.

Inductive result (A : Type) :=
| Ok (a : A)
| Err (e : exn).
Arguments Ok {A} a.
Arguments Err {A} e.

Definition bind {A B} (r : result A) (f : A -> result B) : result B :=
  match r with Ok a => f a | Err e => Err e end.

Notation "'let!' x ':=' r 'in' k" := (bind r (fun x => k))
  (at level 200, x pattern, right associativity).

Definition is_ok {A} (r : result A) : bool :=
  match r with Ok _ => true | Err _ => false end.

(** [guard c e]: Python's [if not c: raise e]. *)
Definition guard (c : bool) (e : exn) : result unit := if c then Ok tt else Err e.

Definition mem (x : bytes) (l : list bytes) : bool := existsb (bytes_eqb x) l.

(** Python slice [l[a:b]] for 0 <= a <= b. *)
Definition slice {A} (a b : nat) (l : list A) : list A := firstn (b - a) (skipn a l).
