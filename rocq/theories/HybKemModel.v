(** Model of the hybrid key encapsulation keys: X-Wing (pq_logic/keys/xwing.py), Chempat (pq_logic/keys/chempat_key.py)
    and composite KEM (pq_logic/keys/composite_kem.py), with the name tables of pq_logic/tmp_oids.py.

    Simplifications.  The ML-KEM half is the model of PqKeyModel.v, without liboqs; the other post-quantum halves are
    fields of [lib].  The random values are arguments.  Logging is left out. *)
From Coq Require Import String Ascii.
From Verif Require Import Prelude CompSigModel CompLoadModel.
From Verif Require PqKeyModel.
From Verif Require Import TradKemModel.
Open Scope Z_scope.

(** ** Post-quantum half *)
Inductive frodo := F640 | F976 | F1344.
Inductive mceliece := M348864 | M460896 | M6688128 | M6960119 | M8192128.
Inductive pqname := MlKem (a : PqKeyModel.kem_name) | Frodo (n : frodo) (aes : bool) | McEliece (n : mceliece) | Sntrup761.

(** pq_logic/keys/kem_keys.py 48-48 (ML_KEM_NAMES), pq_logic/keys/kem_keys.py 66-73 (_FRODOKEM_NAMES),
    pq_logic/keys/kem_keys.py 41-47 (VALID_MCELIECE_OPTIONS) *)
Definition pq_name (q : pqname) : string :=
  match q with
  | MlKem PqKeyModel.K512 => "ml-kem-512" | MlKem PqKeyModel.K768 => "ml-kem-768" | MlKem PqKeyModel.K1024 => "ml-kem-1024"
  | Frodo F640 true => "frodokem-640-aes" | Frodo F640 false => "frodokem-640-shake"
  | Frodo F976 true => "frodokem-976-aes" | Frodo F976 false => "frodokem-976-shake"
  | Frodo F1344 true => "frodokem-1344-aes" | Frodo F1344 false => "frodokem-1344-shake"
  | McEliece M348864 => "mceliece-348864" | McEliece M460896 => "mceliece-460896"
  | McEliece M6688128 => "mceliece-6688128" | McEliece M6960119 => "mceliece-6960119"
  | McEliece M8192128 => "mceliece-8192128"
  | Sntrup761 => "sntrup761"
  end.

(** What is taken from outside: the traditional mechanisms, SHA3-256, SHAKE256 with 96 bytes of output, HMAC, the environment
    of ML-KEM and the remaining post-quantum mechanisms. *)
Record hlib := {
  h_trad : TradKemModel.lib;
  h_sha3 : bytes -> bytes;
  h_shake96 : bytes -> bytes;
  h_hmac : hash -> bytes -> bytes -> bytes;              (* hash, key, message *)
  h_pq : PqKeyModel.env;
  h_enc : pqname -> bytes -> bytes -> result (bytes * bytes);   (* public key, randomness; secret and ciphertext *)
  h_dec : pqname -> bytes -> bytes -> result bytes;
  h_ct_len : pqname -> nat
}.

(** PQKEMPublicKey: algorithm and public bytes.  PQKEMPrivateKey: algorithm, private bytes, the bytes public_key() returns,
    and the seed. *)
Record pqpub := { pp_name : pqname; pp_bytes : bytes }.
Record pqpriv := { ps_name : pqname; ps_priv : bytes; ps_pub : bytes; ps_seed : option bytes }.
Definition pq_public (k : pqpriv) : pqpub := {| pp_name := ps_name k; pp_bytes := ps_pub k |}.

(** An ML-KEM key object of PqKeyModel.v. *)
Definition of_kem (a : PqKeyModel.kem_name) (k : PqKeyModel.key) : pqpriv :=
  {| ps_name := MlKem a; ps_priv := PqKeyModel.k_priv k; ps_pub := PqKeyModel.p_bytes (PqKeyModel.public_key k);
     ps_seed := PqKeyModel.k_seed k |}.

Section Lib.
Variable L : hlib.

(** encaps() and decaps() of the post-quantum half: pq_logic/keys/kem_keys.py 100-105 (MLKEMPublicKey.encaps),
    pq_logic/keys/kem_keys.py 231-243 (MLKEMPrivateKey.decaps). *)
Definition pq_encaps (k : pqpub) (m : bytes) : result (bytes * bytes) :=
  match pp_name k with
  | MlKem a => PqKeyModel.kem_encaps (h_pq L) a (pp_bytes k) m
  | q => h_enc L q (pp_bytes k) m
  end.
Definition pq_decaps (k : pqpriv) (ct : bytes) : result bytes :=
  match ps_name k with
  | MlKem a => PqKeyModel.kem_decaps (h_pq L) a (ps_priv k) ct
  | q => h_dec L q (ps_priv k) ct
  end.
(** ct_length: pq_logic/keys/kem_keys.py 108-110 (MLKEMPublicKey.ct_length) *)
Definition pq_ct_length (q : pqname) : nat :=
  match q with
  | MlKem PqKeyModel.K512 => 768 | MlKem PqKeyModel.K768 => 1088 | MlKem PqKeyModel.K1024 => 1568
  | q => h_ct_len L q
  end.

Notation TL := (h_trad L).

(** ** X-Wing *)
(** pq_logic/keys/xwing.py 26-29 (_XWING_LABEL): the two lines without line ends and blanks. *)
Definition XWING_LABEL : bytes := [92; 46; 47] ++ [47; 94; 92].

(** XWingPublicKey and XWingPrivateKey: the ML-KEM-768 half, the bytes of the x25519 half, the seed. *)
Record xpub := { xp_pq : bytes; xp_trad : bytes }.
Record xpriv := { xs_pq : PqKeyModel.key; xs_trad : bytes; xs_seed : option bytes }.

(** pq_logic/keys/xwing.py 58-71 (XWingPublicKey.from_public_bytes): x25519 takes any 32 bytes. *)
Definition xwing_from_public (data : bytes) : result xpub :=
  let! _ := guard (length data =? 1216)%nat EInvalidKeyData in
  let pk_m := firstn 1184 data in
  let pk_x := skipn 1184 data in
  let! t := read_pub TL X25519 pk_x in
  let! q := PqKeyModel.from_public_bytes (PqKeyModel.Kem PqKeyModel.K768) pk_m in
  Ok {| xp_pq := PqKeyModel.p_bytes q; xp_trad := t |}.
(** pq_logic/keys/xwing.py 73-75 (XWingPublicKey.public_bytes_raw) *)
Definition xwing_public_bytes (k : xpub) : bytes := xp_pq k ++ xp_trad k.
(** pq_logic/keys/xwing.py 259-261 (XWingPrivateKey.public_key) *)
Definition xwing_public (k : xpriv) : xpub :=
  {| xp_pq := PqKeyModel.p_bytes (PqKeyModel.public_key (xs_pq k)); xp_trad := t_pub TL X25519 (xs_trad k) |}.

(** pq_logic/keys/xwing.py 211-224 (XWingPrivateKey.kem_combiner) *)
Definition xwing_combiner (ss_m ss_x ct_x pk_x : bytes) : bytes :=
  h_sha3 L (ss_m ++ ss_x ++ ct_x ++ pk_x ++ XWING_LABEL).
(** pq_logic/keys/xwing.py 77-92 (XWingPublicKey.encaps); [eph]: the given x25519 key or the generated one, [m]: the
    randomness of ML-KEM. *)
Definition xwing_encaps (k : xpub) (eph m : bytes) : result (bytes * bytes) :=
  let! ss_x := t_exchange TL X25519 eph (xp_trad k) in
  let! (ss_m, ct_m) := PqKeyModel.kem_encaps (h_pq L) PqKeyModel.K768 (xp_pq k) m in
  let ct_x := t_pub TL X25519 eph in
  Ok (xwing_combiner ss_m ss_x ct_x (xp_trad k), ct_m ++ ct_x).
(** pq_logic/keys/xwing.py 240-252 (XWingPrivateKey.decaps) *)
Definition xwing_decaps (k : xpriv) (ct : bytes) : result bytes :=
  let ct_m := slice 0 1088 ct in
  let ct_x := slice 1088 1120 ct in
  let! ss_m := PqKeyModel.kem_decaps (h_pq L) PqKeyModel.K768 (PqKeyModel.k_priv (xs_pq k)) ct_m in
  let! q := read_pub TL X25519 ct_x in
  let! ss_x := t_exchange TL X25519 (xs_trad k) q in
  Ok (xwing_combiner ss_m ss_x ct_x (t_pub TL X25519 (xs_trad k))).

(** x25519.X25519PrivateKey.from_private_bytes: any 32 bytes. *)
Definition x25519_priv (b : bytes) : result bytes := if (length b =? 32)%nat then Ok b else Err EValueError.

(** pq_logic/keys/xwing.py 268-282 (XWingPrivateKey._from_seed), pq_logic/keys/xwing.py 296-303 (XWingPrivateKey.expand) *)
Definition xwing_expand (seed : bytes) : result xpriv :=
  let s := if (length seed =? 32)%nat then h_shake96 L seed else seed in
  let! _ := guard (length s =? 96)%nat EValueError in
  let! q := PqKeyModel.kem_from_private_bytes (h_pq L) PqKeyModel.K768 (firstn 64 s) in
  let! t := x25519_priv (slice 64 96 s) in
  Ok {| xs_pq := q; xs_trad := t; xs_seed := Some seed |}.
(** pq_logic/keys/xwing.py 285-293 (XWingPrivateKey.from_seed) *)
Definition xwing_from_seed (seed : bytes) : result xpriv :=
  if (length seed =? 32)%nat || (length seed =? 96)%nat then xwing_expand seed else Err EValueError.

(** private_bytes_raw: pq_logic/keys/abstract_wrapper_keys.py 978-980 (AbstractHybridRawPrivateKey.private_bytes_raw) *)
Definition xwing_raw (k : xpriv) : bytes := PqKeyModel.k_priv (xs_pq k) ++ xs_trad k.

(** pq_logic/keys/xwing.py 172-208 (XWingPrivateKey.from_private_bytes): the 32 bytes of a zero length seed can not reach
    [expand] here. *)
Definition xwing_from_private (data : bytes) : result xpriv :=
  if (length data =? 96)%nat then
    let! q := PqKeyModel.kem_from_private_bytes (h_pq L) PqKeyModel.K768 (firstn 64 data) in
    let! t := x25519_priv (skipn 64 data) in
    Ok {| xs_pq := q; xs_trad := t; xs_seed := None |}
  else if (length data =? 32)%nat then xwing_expand data
  else if negb (length data =? 2432)%nat && negb (length data =? 2464)%nat then Err EInvalidKeyData
  else
    let with_seed := (length data =? 2464)%nat in
    let! seed_key := (if with_seed then let! s := xwing_expand (firstn 32 data) in Ok (Some s) else Ok None) in
    let trad_data := if with_seed then skipn 2432 data else skipn 2400 data in
    let pq_data := if with_seed then slice 32 2432 data else firstn 2400 data in
    let! t := x25519_priv trad_data in
    let! q := PqKeyModel.kem_from_private_bytes (h_pq L) PqKeyModel.K768 pq_data in
    let key := {| xs_pq := q; xs_trad := t; xs_seed := None |} in
    match seed_key with
    | Some s => if bytes_eqb (xwing_raw s) (xwing_raw key) then Ok s else Err EInvalidKeyData
    | None => Ok key
    end.
(** pq_logic/keys/xwing.py 263-265 (XWingPrivateKey._export_private_key): an empty seed counts as none. *)
Definition xwing_export (k : xpriv) : bytes :=
  match xs_seed k with Some (x :: s) => x :: s | _ => xwing_raw k end.
(** pq_logic/keys/xwing.py 152-161 (XWingPrivateKey.private_numbers) *)
Definition xwing_numbers (k : xpriv) : result bytes :=
  match xs_seed k with Some s => Ok s | None => Err EValueError end.
(** pq_logic/keys/hybrid_key_factory.py 537-582 (HybridKeyFactory._save_keys_with_support_seed), X-Wing branch *)
Definition xwing_save (t : PqKeyModel.save_type) (k : xpriv) : result bytes :=
  let! _ := PqKeyModel.save_private (xs_pq k) t in
  match t with
  | PqKeyModel.SEED => xwing_numbers k
  | PqKeyModel.RAW => Ok (xwing_raw k)
  | PqKeyModel.SEED_AND_RAW => let! s := xwing_numbers k in Ok (s ++ xwing_raw k)
  end.

(** ** Names and object identifiers *)
Definition oid := list Z.
(** pq_logic/tmp_oids.py: the arcs of the composite KEM draft (Entrust) and those of the test suite. *)
Definition id_new_comp_kem : oid := [2; 16; 840; 1; 114027; 80; 5; 2].
Definition id_hybrid_kem : oid := [1; 3; 6; 1; 5; 5; 7; 4; 9996; 9999; 3].
Definition id_comp_frodo : oid := id_hybrid_kem ++ [1; 1].
Definition id_dhkem_mlkem : oid := id_hybrid_kem ++ [1; 2].
Definition id_dhkem_frodo : oid := id_hybrid_kem ++ [1; 3].
Definition id_chempat : oid := id_hybrid_kem ++ [2].

(** pq_logic/tmp_oids.py 463-463 (COMPOSITE_KEM_NAME_2_OID) *)
Definition COMPOSITE_KEM_NAME_2_OID : list (string * oid) := [
  ("composite-kem-ml-kem-768-rsa2048", (id_new_comp_kem ++ [50])%list);
  ("composite-kem-ml-kem-768-rsa3072", (id_new_comp_kem ++ [51])%list);
  ("composite-kem-ml-kem-768-rsa4096", (id_new_comp_kem ++ [52])%list);
  ("composite-kem-ml-kem-768-x25519", (id_new_comp_kem ++ [53])%list);
  ("composite-kem-ml-kem-768-ecdh-secp256r1", (id_new_comp_kem ++ [54])%list);
  ("composite-kem-ml-kem-768-ecdh-secp384r1", (id_new_comp_kem ++ [55])%list);
  ("composite-kem-ml-kem-768-ecdh-brainpoolP256r1", (id_new_comp_kem ++ [56])%list);
  ("composite-kem-ml-kem-1024-rsa3072", (id_new_comp_kem ++ [61])%list);
  ("composite-kem-ml-kem-1024-ecdh-secp384r1", (id_new_comp_kem ++ [57])%list);
  ("composite-kem-ml-kem-1024-ecdh-brainpoolP384r1", (id_new_comp_kem ++ [58])%list);
  ("composite-kem-ml-kem-1024-x448", (id_new_comp_kem ++ [59])%list);
  ("composite-kem-ml-kem-1024-ecdh-secp521r1", (id_new_comp_kem ++ [60])%list);
  ("composite-kem-frodokem-976-aes-rsa2048", (id_comp_frodo ++ [1])%list);
  ("composite-kem-frodokem-976-aes-rsa3072", (id_comp_frodo ++ [2])%list);
  ("composite-kem-frodokem-976-aes-rsa4096", (id_comp_frodo ++ [3])%list);
  ("composite-kem-frodokem-976-aes-x25519", (id_comp_frodo ++ [4])%list);
  ("composite-kem-frodokem-976-aes-ecdh-secp384r1", (id_comp_frodo ++ [5])%list);
  ("composite-kem-frodokem-976-aes-ecdh-brainpoolP256r1", (id_comp_frodo ++ [6])%list);
  ("composite-kem-frodokem-976-shake-rsa2048", (id_comp_frodo ++ [7])%list);
  ("composite-kem-frodokem-976-shake-rsa3072", (id_comp_frodo ++ [8])%list);
  ("composite-kem-frodokem-976-shake-rsa4096", (id_comp_frodo ++ [9])%list);
  ("composite-kem-frodokem-976-shake-x25519", (id_comp_frodo ++ [10])%list);
  ("composite-kem-frodokem-976-shake-ecdh-secp384r1", (id_comp_frodo ++ [11])%list);
  ("composite-kem-frodokem-976-shake-ecdh-brainpoolP256r1", (id_comp_frodo ++ [12])%list);
  ("composite-kem-frodokem-1344-aes-ecdh-secp384r1", (id_comp_frodo ++ [13])%list);
  ("composite-kem-frodokem-1344-aes-ecdh-brainpoolP384r1", (id_comp_frodo ++ [14])%list);
  ("composite-kem-frodokem-1344-aes-x448", (id_comp_frodo ++ [15])%list);
  ("composite-kem-frodokem-1344-shake-ecdh-secp384r1", (id_comp_frodo ++ [16])%list);
  ("composite-kem-frodokem-1344-shake-ecdh-brainpoolP384r1", (id_comp_frodo ++ [17])%list);
  ("composite-kem-frodokem-1344-shake-x448", (id_comp_frodo ++ [18])%list);
  ("composite-dhkem-ml-kem-768-x25519", (id_dhkem_mlkem ++ [1])%list);
  ("composite-dhkem-ml-kem-768-ecdh-secp384r1", (id_dhkem_mlkem ++ [2])%list);
  ("composite-dhkem-ml-kem-768-ecdh-brainpoolP256r1", (id_dhkem_mlkem ++ [3])%list);
  ("composite-dhkem-ml-kem-1024-ecdh-secp384r1", (id_dhkem_mlkem ++ [4])%list);
  ("composite-dhkem-ml-kem-1024-ecdh-brainpoolP384r1", (id_dhkem_mlkem ++ [5])%list);
  ("composite-dhkem-ml-kem-1024-x448", (id_dhkem_mlkem ++ [6])%list);
  ("composite-dhkem-frodokem-976-aes-x25519", (id_dhkem_frodo ++ [1])%list);
  ("composite-dhkem-frodokem-976-aes-ecdh-secp384r1", (id_dhkem_frodo ++ [2])%list);
  ("composite-dhkem-frodokem-976-aes-ecdh-brainpoolP256r1", (id_dhkem_frodo ++ [3])%list);
  ("composite-dhkem-frodokem-976-shake-x25519", (id_dhkem_frodo ++ [4])%list);
  ("composite-dhkem-frodokem-976-shake-ecdh-secp384r1", (id_dhkem_frodo ++ [5])%list);
  ("composite-dhkem-frodokem-976-shake-ecdh-brainpoolP256r1", (id_dhkem_frodo ++ [6])%list);
  ("composite-dhkem-frodokem-1344-aes-ecdh-secp384r1", (id_dhkem_frodo ++ [7])%list);
  ("composite-dhkem-frodokem-1344-aes-ecdh-brainpoolP384r1", (id_dhkem_frodo ++ [8])%list);
  ("composite-dhkem-frodokem-1344-aes-x448", (id_dhkem_frodo ++ [9])%list);
  ("composite-dhkem-frodokem-1344-shake-ecdh-secp384r1", (id_dhkem_frodo ++ [10])%list);
  ("composite-dhkem-frodokem-1344-shake-ecdh-brainpoolP384r1", (id_dhkem_frodo ++ [11])%list);
  ("composite-dhkem-frodokem-1344-shake-x448", (id_dhkem_frodo ++ [12])%list)]%string.
(** pq_logic/tmp_oids.py 433-433 (CHEMPAT_NAME_2_OID) *)
Definition CHEMPAT_NAME_2_OID : list (string * oid) := [
  ("chempat-sntrup761-x25519", (id_chempat ++ [1])%list);
  ("chempat-mceliece-348864-x25519", (id_chempat ++ [2])%list);
  ("chempat-mceliece-460896-x25519", (id_chempat ++ [3])%list);
  ("chempat-mceliece-6688128-x25519", (id_chempat ++ [4])%list);
  ("chempat-mceliece-6960119-x25519", (id_chempat ++ [5])%list);
  ("chempat-mceliece-8192128-x25519", (id_chempat ++ [6])%list);
  ("chempat-mceliece-348864-x448", (id_chempat ++ [7])%list);
  ("chempat-mceliece-460896-x448", (id_chempat ++ [8])%list);
  ("chempat-mceliece-6688128-x448", (id_chempat ++ [9])%list);
  ("chempat-mceliece-6960119-x448", (id_chempat ++ [10])%list);
  ("chempat-mceliece-8192128-x448", (id_chempat ++ [11])%list);
  ("chempat-ml-kem-768-x25519", (id_chempat ++ [12])%list);
  ("chempat-ml-kem-1024-x448", (id_chempat ++ [13])%list);
  ("chempat-ml-kem-768-ecdh-secp256r1", (id_chempat ++ [14])%list);
  ("chempat-ml-kem-1024-ecdh-secp384r1", (id_chempat ++ [15])%list);
  ("chempat-ml-kem-768-ecdh-brainpoolP256r1", (id_chempat ++ [16])%list);
  ("chempat-ml-kem-1024-ecdh-brainpoolP384r1", (id_chempat ++ [17])%list);
  ("chempat-frodokem-976-aes-x25519", (id_chempat ++ [18])%list);
  ("chempat-frodokem-976-shake-x25519", (id_chempat ++ [19])%list);
  ("chempat-frodokem-640-aes-ecdh-brainpoolP256r1", (id_chempat ++ [20])%list);
  ("chempat-frodokem-640-shake-ecdh-brainpoolP256r1", (id_chempat ++ [21])%list);
  ("chempat-frodokem-976-aes-ecdh-brainpoolP384r1", (id_chempat ++ [22])%list);
  ("chempat-frodokem-976-shake-ecdh-brainpoolP384r1", (id_chempat ++ [23])%list);
  ("chempat-frodokem-1344-aes-ecdh-brainpoolP512r1", (id_chempat ++ [24])%list);
  ("chempat-frodokem-1344-shake-ecdh-brainpoolP512r1", (id_chempat ++ [25])%list);
  ("chempat-frodokem-1344-aes-x448", (id_chempat ++ [26])%list);
  ("chempat-frodokem-1344-shake-x448", (id_chempat ++ [27])%list)]%string.

(** dict.get *)
Fixpoint get {A} (n : string) (l : list (string * A)) : option A :=
  match l with [] => None | (m, a) :: r => if String.eqb n m then Some a else get n r end.

(** pyasn1's DER encoder of an object identifier (identifiers with a body below 128 bytes): base 128, most significant
    group first, bit 8 set on all but the last. *)
Fixpoint base128 (fuel : nat) (v : Z) (acc : bytes) : bytes :=
  match fuel with
  | O => acc
  | S f => if v =? 0 then acc else base128 f (v / 128) ((v mod 128 + 128) :: acc)
  end.
Definition enc_arc (v : Z) : bytes := base128 10 (v / 128) [v mod 128].
Definition der_oid (o : oid) : bytes :=
  match o with
  | a :: b :: r => let body := enc_arc (40 * a + b) ++ flat_map enc_arc r in 6 :: Z.of_nat (length body) :: body
  | _ => []
  end.

(** ** Chempat *)
(** str.replace of every occurrence; the pattern is not empty. *)
Fixpoint replace_all (fuel : nat) (old new s : string) : string :=
  match fuel with
  | O => s
  | S f =>
      match s with
      | EmptyString => EmptyString
      | String c r =>
          if startswith old s then new ++ replace_all f old new (String.substring (String.length old) (String.length s) s)
          else String c (replace_all f old new r)
      end
  end.
Definition replace (old new s : string) : string := replace_all (String.length s) old new s.
(** str.upper *)
Definition upper_ascii (c : ascii) : ascii :=
  let n := N_of_ascii c in if ((97 <=? n) && (n <=? 122))%N then ascii_of_N (n - 32) else c.
Fixpoint upper (s : string) : string :=
  match s with EmptyString => EmptyString | String c r => String (upper_ascii c) (upper r) end.

(** pq_logic/keys/chempat_key.py 43-51 (CURVE_NAME_2_CONTEXT_NAME) *)
Definition CURVE_NAME_2_CONTEXT_NAME : list (string * string) := [
  ("secp256r1", "P256"); ("brainpoolP256r1", "brainpoolP256"); ("secp384r1", "P384"); ("brainpoolP384r1", "brainpoolP384");
  ("brainpoolP512r1", "brainpoolP512"); ("x448", "X448"); ("x25519", "X25519")]%string.

(** pq_logic/keys/chempat_key.py 128-162 (ChempatPublicKey.get_context) *)
Definition chempat_context (q : pqname) (c : curve) : result bytes :=
  let name := pq_name q in
  let pq :=
    match q with
    | Sntrup761 => "sntrup761"
    | McEliece _ => lower (replace "-" "" name)
    | MlKem _ => upper name
    | Frodo _ _ => replace "-shake" "" (replace "-aes" "" (replace "frodokem" "FrodoKEM" name))
    end%string in
  let cn := curve_name c in
  let! cn := (if String.eqb cn "x448" || String.eqb cn "x25519" then Ok (upper cn)
              else of_opt (get cn CURVE_NAME_2_CONTEXT_NAME) EKeyError) in
  Ok (lit "Chempat-" ++ lit cn ++ lit "-" ++ lit pq).

(** pq_logic/keys/chempat_key.py 165-195 (ChempatPublicKey.kem_combiner) *)
Definition chempat_combiner (trad_ct trad_ss pq_ct pq_ss pq_pub_key trad_pub_key context : bytes) : bytes :=
  let hybrid_pk := pq_pub_key ++ trad_pub_key in
  let hybrid_ct := trad_ct ++ pq_ct in
  let h_hybrid_ct := h_sha3 L hybrid_ct in
  let h_hybrid_pk := h_sha3 L hybrid_pk in
  h_sha3 L (trad_ss ++ pq_ss ++ h_hybrid_ct ++ h_hybrid_pk ++ context).

(** ChempatPublicKey, ChempatPrivateKey: the two halves; the traditional one is wrapped with use_rfc9180=True. *)
Record cpub := { cp_pq : pqpub; cp_curve : curve; cp_trad : bytes }.
Record cpriv := { cs_pq : pqpriv; cs_curve : curve; cs_trad : bytes }.
(** pq_logic/keys/chempat_key.py 312-314 (ChempatPrivateKey.public_key) *)
Definition chempat_public (k : cpriv) : cpub :=
  {| cp_pq := pq_public (cs_pq k); cp_curve := cs_curve k; cp_trad := t_pub TL (cs_curve k) (cs_trad k) |}.
(** pq_logic/keys/chempat_key.py 197-205 (ChempatPublicKey.encaps) *)
Definition chempat_encaps (k : cpub) (priv : option (curve * bytes)) (r : rnd) (m : bytes) : result (bytes * bytes) :=
  let! (pq_ss, pq_ct) := pq_encaps (cp_pq k) m in
  let! (trad_ss, trad_ct) := trad_encaps TL (PDh true (cp_curve k) (cp_trad k)) priv r in
  let! context := chempat_context (pp_name (cp_pq k)) (cp_curve k) in
  Ok (chempat_combiner trad_ct trad_ss pq_ct pq_ss (pp_bytes (cp_pq k)) (cp_trad k) context, trad_ct ++ pq_ct).
(** pq_logic/keys/chempat_key.py 267-278 (ChempatPrivateKey._check_ct_length) *)
Definition chempat_check_ct_length (k : cpriv) (ct : bytes) : result bool :=
  let nenc := dh_ct_length (cs_curve k) in
  let ct_length := (pq_ct_length (ps_name (cs_pq k)) + nenc)%nat in
  if negb (length ct =? ct_length)%nat then
    if startswith "ecdh" (trad_name TL (trad_public TL (SDh true (cs_curve k) (cs_trad k)))) &&
       (length ct =? ct_length + nenc - 1)%nat
    then Ok false else Err EValueError
  else Ok true.
(** pq_logic/keys/chempat_key.py 280-310 (ChempatPrivateKey.decaps) *)
Definition chempat_decaps (k : cpriv) (ct : bytes) : result bytes :=
  let nenc := dh_ct_length (cs_curve k) in
  let! is_compressed := chempat_check_ct_length k ct in
  let nenc := if is_compressed then nenc else (nenc + nenc - 1)%nat in
  let trad_ct := firstn nenc ct in
  let pq_ct := skipn nenc ct in
  let! trad_ss := trad_decaps TL (SDh true (cs_curve k) (cs_trad k)) trad_ct in
  let! pq_ss := pq_decaps (cs_pq k) pq_ct in
  let! context := chempat_context (ps_name (cs_pq k)) (cs_curve k) in
  Ok (chempat_combiner trad_ct trad_ss pq_ct pq_ss (ps_pub (cs_pq k)) (t_pub TL (cs_curve k) (cs_trad k)) context).
(** pq_logic/keys/chempat_key.py 62-64 (ChempatPublicKey.name), pq_logic/keys/chempat_key.py 109-113 (ChempatPublicKey.get_oid) *)
Definition chempat_name (k : cpub) : string :=
  "chempat-" ++ pq_name (pp_name (cp_pq k)) ++ "-" ++ trad_name TL (PDh true (cp_curve k) (cp_trad k)).
Definition chempat_oid (k : cpub) : result oid := of_opt (get (chempat_name k) CHEMPAT_NAME_2_OID) EInvalidKeyCombination.

(** ** Composite KEM *)
(** CompositeKEM... (false) and CompositeDHKEMRFC9180... (true) keys. *)
Record kpub := { kp_dhkem : bool; kp_pq : pqpub; kp_trad : tpub }.
Record kpriv := { ks_dhkem : bool; ks_pq : pqpriv; ks_trad : tpriv }.
(** The constructors: pq_logic/keys/composite_kem.py 56-67 (CompositeKEMPublicKey.__init__) keeps a wrapped traditional key,
    pq_logic/keys/composite_kem.py 300-303 (CompositeDHKEMRFC9180PublicKey.__init__) wraps it again with use_rfc9180=True.  An RSA
    key in the latter is not modelled. *)
Definition mk_kpub (dhkem : bool) (q : pqpub) (t : tpub) : kpub :=
  {| kp_dhkem := dhkem; kp_pq := q;
     kp_trad := match t with PDh rfc c p => PDh (if dhkem then true else rfc) c p | PRsa k => PRsa k end |}.
Definition mk_kpriv (dhkem : bool) (q : pqpriv) (t : tpriv) : kpriv :=
  {| ks_dhkem := dhkem; ks_pq := q;
     ks_trad := match t with SDh rfc c d => SDh (if dhkem then true else rfc) c d | SRsa k => SRsa k end |}.
(** pq_logic/keys/composite_kem.py 257-259 (CompositeKEMPrivateKey.public_key),
    pq_logic/keys/composite_kem.py 326-328 (CompositeDHKEMRFC9180PrivateKey.public_key) *)
Definition comp_public (k : kpriv) : kpub := mk_kpub (ks_dhkem k) (pq_public (ks_pq k)) (trad_public TL (ks_trad k)).

Definition class_name (dhkem : bool) : string := if dhkem then "composite-dhkem" else "composite-kem".
(** pq_logic/keys/composite_kem.py 85-87 (CompositeKEMPublicKey.name), pq_logic/keys/composite_kem.py 89-93 (CompositeKEMPublicKey.get_oid) *)
Definition comp_name (k : kpub) : string :=
  class_name (kp_dhkem k) ++ "-" ++ pq_name (pp_name (kp_pq k)) ++ "-" ++ trad_name TL (kp_trad k).
Definition comp_oid (k : kpub) : result oid := of_opt (get (comp_name k) COMPOSITE_KEM_NAME_2_OID) EInvalidKeyCombination.
(** pq_logic/keys/composite_kem.py 246-255 (CompositeKEMPrivateKey.get_oid) *)
Definition comp_priv_oid (k : kpriv) : result oid :=
  let n := match trad_public TL (ks_trad k) with
           | PRsa p => "rsa" ++ dec (get_rsa_size (t_rsa_bits TL p))
           | t => trad_name TL t
           end%string in
  of_opt (get (class_name (ks_dhkem k) ++ "-" ++ pq_name (ps_name (ks_pq k)) ++ "-" ++ n)%string COMPOSITE_KEM_NAME_2_OID)
    EInvalidKeyCombination.

(** pq_logic/keys/composite_kem.py 37-46 (_get_kdf_algorithm) *)
Definition kdf_algorithm (q : string) (t : tpub) : string :=
  let trad_name := trad_name TL t in
  let in_list := existsb (String.eqb q) ["ml-kem-768"; "frodokem-976-aes"; "frodokem-976-shake"]%string in
  if in_list && String.eqb trad_name "x25519" then "sha3_256"
  else if in_list then "hmac-sha256"
  else if String.eqb trad_name "x448" then "sha3_256"
  else "hmac-sha512".

(** pq_logic/keys/composite_kem.py 95-149 (CompositeKEMPublicKey.kem_combiner).  HKDF would be used for the names that begin with
    hkdf-; [split("-")[1]] is what follows the first hyphen, the names have only one. *)
Definition comp_combiner (k : kpub) (mlkem_ss trad_ss trad_ct trad_pk : bytes) (use_in_cms : bool) : result bytes :=
  let! o := comp_oid k in
  let inputs := mlkem_ss ++ trad_ss ++ trad_ct ++ trad_pk ++ der_oid o in
  let kdf_name := kdf_algorithm (pq_name (pp_name (kp_pq k))) (kp_trad k) in
  let hash_alg := drop_first "hkdf-" (drop_first "hmac-" kdf_name) in
  let of_name := if String.eqb hash_alg "sha512" then Ok Sha512 else if String.eqb hash_alg "sha256" then Ok Sha256
                 else Err ENotImplemented in
  if use_in_cms then
    if startswith "hkdf-" kdf_name then
      let! h := of_name in
      Ok (t_expand TL h (t_extract TL h (repeat 0 (digest_size h)) inputs) [] 32)
    else Ok (h_sha3 L inputs)
  else if startswith "hmac-" kdf_name then
    let! h := of_name in
    Ok (firstn 32 (h_hmac L h (repeat 0 (digest_size h)) inputs))
  else Ok (h_sha3 L inputs).

(** pq_logic/keys/composite_kem.py 166-176 (CompositeKEMPublicKey.encaps), pq_logic/keys/composite_kem.py 151-164 (CompositeKEMPublicKey._trad_encaps) *)
Definition comp_encaps (k : kpub) (priv : option (curve * bytes)) (r : rnd) (m : bytes) (use_in_cms : bool) : result (bytes * bytes) :=
  let! (mlkem_ss, mlkem_ct) := pq_encaps (kp_pq k) m in
  let! (trad_ss, trad_ct) := trad_encaps TL (kp_trad k) priv r in
  let! ss := comp_combiner k mlkem_ss trad_ss trad_ct (trad_encode TL (kp_trad k)) use_in_cms in
  Ok (ss, mlkem_ct ++ trad_ct).
(** pq_logic/keys/composite_kem.py 279-291 (CompositeKEMPrivateKey.decaps) *)
Definition comp_decaps (k : kpriv) (ct : bytes) (use_in_cms : bool) : result bytes :=
  let n := pq_ct_length (ps_name (ks_pq k)) in
  let mlkem_ct := firstn n ct in
  let trad_ct := skipn n ct in
  let! mlkem_ss := pq_decaps (ks_pq k) mlkem_ct in
  let! trad_ss := trad_decaps TL (ks_trad k) trad_ct in
  comp_combiner (comp_public k) mlkem_ss trad_ss trad_ct (trad_encode TL (trad_public TL (ks_trad k))) use_in_cms.
End Lib.
