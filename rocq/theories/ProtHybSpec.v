(** Vocabulary of the hybrid protection properties (C98 to C100). *)
From Coq Require Import String Ascii.
From Verif Require Import Prelude PyStr CompLoadModel HdrModel ProtTab ProtModel ProtSpec ProtMatchSpec ProtHybModel.
Open Scope string_scope.
Open Scope Z_scope.
Local Notation length := List.length.

Definition is_composite (a : algid) : Prop := In (a_oid a) composites.
(** The signature [v] over [data] verifies with the key under the scheme the identifier names for it. *)
Definition sig_valid (L : lib) (a : algid) (k : key) (data v : bytes) : Prop :=
  exists s, sig_scheme L a (k_kind k) s /\ l_verify L s k v data = Ok tt.
(** The last entry of a type. *)
Definition last_entry (t : string) (l : list info) (i : info) : Prop :=
  exists l1 l2, l = (l1 ++ i :: l2)%list /\ i_type i = t /\ (forall j, In j l2 -> i_type j <> t).
Definition none_of (t : string) (l : list info) : Prop := forall i, In i l -> i_type i <> t.
(** Every entry of the three types can be decoded. *)
Definition readable (L : lib) (Y : hyb) (l : list info) : Prop :=
  forall i, In i l ->
    (i_type i = alt_alg -> exists a, decodes (l_dec_alg L) (i_val i) a) /\
    (i_type i = alt_spki -> exists k, decodes (y_dec_spki Y) (i_val i) k) /\
    (i_type i = alt_sig -> exists s, decodes (y_dec_bits Y) (i_val i) s).
(** The message without its alternative signatures. *)
Definition without_alt (m : msg) : msg :=
  set_header m (set_infos (m_header m) (filter (fun i => negb (String.eqb (i_type i) alt_sig)) (h_info (m_header m)))).
(** The alternative key: the last one of the message itself, in its absence the one of the certificate. *)
Inductive alt_key (Y : hyb) (c : cert) (others : list cert) (l : list info) : key -> Prop :=
| AK_message : forall i k, last_entry alt_spki l i -> decodes (y_dec_spki Y) (i_val i) (Ok k) -> alt_key Y c others l k
| AK_cert : forall k, none_of alt_spki l -> y_alt Y c others = Ok (Some k) -> alt_key Y c others l k.
(** The last alternative signature verifies under the last alternative algorithm over the message without
    alternative signatures. *)
Definition alt_signed (L : lib) (Y : hyb) (m : msg) (c : cert) (others : list cert) : Prop :=
  exists i j a v k data, last_entry alt_alg (h_info (m_header m)) i /\ decodes (l_dec_alg L) (i_val i) a /\
    last_entry alt_sig (h_info (m_header m)) j /\ decodes (y_dec_bits Y) (i_val j) v /\
    alt_key Y c others (h_info (m_header m)) k /\ part_of L (without_alt m) data /\ sig_valid L a k data v.
Definition no_alt (m : msg) : Prop := none_of alt_alg (h_info (m_header m)) /\ none_of alt_sig (h_info (m_header m)).
(** The composite key of a certificate: its own, or its traditional key joined with an ML-DSA alternative key. *)
Inductive hybrid_key (Y : hyb) (c : cert) (others : list cert) : key -> Prop :=
| HK_comp : forall k, y_class Y c = CComp -> c_pub c = Ok k -> hybrid_key Y c others k
| HK_pair : forall k1 k2 p t n k, y_class Y c = CTrad -> y_alt Y c others = Ok (Some k1) -> c_pub c = Ok k2 ->
    ((exists x, k_kind k1 = KPq x) /\ p = k1 /\ t = k2 \/ (forall x, k_kind k1 <> KPq x) /\ p = k2 /\ t = k1) ->
    k_kind p = KPq n -> In n ML_DSA_NAMES -> In (k_kind t) [KEc; KEd25519; KEd448; KRsa] -> y_combine Y p t = Ok k ->
    hybrid_key Y c others k.
Definition comp_public (public : option key) : Prop := exists k, public = Some k /\ is_comp (k_kind k) = true.
(** The key a message is verified with. *)
Inductive verifier (Y : hyb) (m : msg) (public : option key) (a : algid) : key -> Prop :=
| VK_public : forall k, is_composite a -> public = Some k -> is_comp (k_kind k) = true -> verifier Y m public a k
| VK_hybrid : forall c others k, is_composite a -> ~ comp_public public -> m_certs m = (c :: others)%list ->
    hybrid_key Y c others k -> verifier Y m public a k
| VK_cert : forall c others k, ~ is_composite a -> m_certs m = (c :: others)%list -> c_pub c = Ok k -> verifier Y m public a k.
(** What is asked of the alternative signature. *)
Definition alt_condition (L : lib) (Y : hyb) (m : msg) (must : bool) : Prop :=
  readable L Y (h_info (m_header m)) /\
  ((no_alt m /\ must = false) \/ exists c others, m_certs m = (c :: others)%list /\ alt_signed L Y m c others).
(** The keys the libraries give have names and identifiers of their tables. *)
Record keys_wf (Y : hyb) (m : msg) (public : option key) : Prop := {
  kw_public : forall k, public = Some k -> wf_kind (k_kind k);
  kw_cert : forall c k, In c (m_certs m) -> c_pub c = Ok k -> wf_kind (k_kind k);
  kw_alt : forall c l k, y_alt Y c l = Ok (Some k) -> wf_kind (k_kind k);
  kw_spki : forall b k r, y_dec_spki Y b = Some (Ok k, r) -> wf_kind (k_kind k);
  kw_combine : forall a b k, y_combine Y a b = Ok k -> wf_kind (k_kind k)
}.
(** Decoding gives back what was encoded. *)
Record hyb_ok (Y : hyb) : Prop := {
  hk_bits : forall b, y_dec_bits Y (y_enc_bits Y b) = Some (b, []);
  hk_spki : forall k b, y_enc_spki Y k = Ok b -> y_dec_spki Y b = Some (Ok k, [])
}.
(** The keys a message can be signed with. *)
Definition signing_key (k : kkind) : bool := single_key k || is_comp k.
(** The key used for protection: the given one, or for composite protection the one joined with the other key. *)
Inductive used_key (Y : hyb) (k : key) : string -> option key -> key -> Prop :=
| UK_signature : forall alt, used_key Y k "signature" alt k
| UK_single : used_key Y k "composite" None k
| UK_pq_second : forall x n k', k_kind x = KPq n -> y_combine Y x k = Ok k' -> used_key Y k "composite" (Some x) k'
| UK_trad_second : forall x k', is_pq_kind (k_kind x) = false -> y_combine Y k x = Ok k' -> used_key Y k "composite" (Some x) k'.
(** The first entry of a type. *)
Definition first_entry (t : string) (l : list info) (i : info) : Prop :=
  exists l1 l2, l = (l1 ++ i :: l2)%list /\ i_type i = t /\ (forall j, In j l1 -> i_type j <> t).
(** generalInfo without any of the three types. *)
Definition no_hybrid (l : list info) : Prop := none_of alt_alg l /\ none_of alt_spki l /\ none_of alt_sig l.
(** A message verified with nothing but a password. *)
Definition verifies (L : lib) (rnd : Z -> bytes) (pw : option sval) (m : msg) : Prop :=
  verify_pkimessage_protection L rnd m {| v_key := None; v_password := pw; v_public := None; v_ss := None; v_lw := false |} = Ok tt.
(** The decimal digits of a number in ASCII. *)
Definition digits_value (l : bytes) : Z := fold_left (fun v d => 10 * v + (d - 48)) l 0.
Definition decimal (i : Z) (l : bytes) : Prop :=
  Forall (fun d => 48 <= d <= 57) l /\ digits_value l = i /\ l <> [] /\ (forall r, l = (48 :: r)%list -> r = []).
(** The certificates of the protected message: those it had, followed by the chain. *)
Definition sent_certs (Y : hyb) (m : msg) (o : yopts) (l : list cert) : Prop :=
  match yo_cert o, yo_exclude o, yo_dir o with
  | Some c, false, d :: ds => exists chain, y_chain Y c (d :: ds) = Ok chain /\ l = (m_certs m ++ chain)%list
  | _, _, _ => l = m_certs m
  end.
