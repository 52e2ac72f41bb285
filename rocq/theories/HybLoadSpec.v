(** Vocabulary for loading and saving hybrid key encapsulation keys, written without the loaders and writers of
    HybLoadModel.v. *)
From Coq Require Import String NArith.
From Verif Require Import Prelude TradKemModel TradKemSpec HybKemModel HybKemSpec HybLoadModel.
From Verif Require PqKeyModel PqKeySpec.
Open Scope Z_scope.

(** What is assumed of the libraries: the loaders of the post-quantum algorithms other than ML-KEM make keys of the
    algorithm asked for, and zero is not the private value of a key. *)
Record good_klib (K : klib) : Prop := {
  gk_name : forall q d k, kl_pq_priv K q d = Ok k -> ps_name k = q;
  gk_zero : forall c, kl_derive K c 0 = None
}.

(** ** Halves of a key *)
(** Private key of the post-quantum half: 64 bytes of seed for ML-KEM. *)
Definition pq_half (L : hlib) (K : klib) (q : pqname) (d : bytes) (k : pqpriv) : Prop :=
  match q with
  | MlKem a => exists x, PqKeySpec.seeded (h_pq L) (PqKeyModel.Kem a) d x /\ k = of_kem a x
  | q => kl_pq_priv K q d = Ok k
  end.
Definition pq_priv_size (K : klib) (q : pqname) : nat := match q with MlKem _ => 64 | q => kl_pq_seed_len K q end.
(** Length of a public key. *)
Definition pq_pub_size (K : klib) (q : pqname) : nat :=
  match q with
  | MlKem a => PqKeySpec.std_pub (PqKeyModel.Kem a)
  | q => kl_pq_pub_len K q
  end.
(** The traditional half of kind [a], read from [d]: ECPrivateKey or RSAPrivateKey with nothing behind it, or the raw key;
    the curve or the size is that of the algorithm. *)
Definition trad_half (L : hlib) (K : klib) (a : talg) (d : bytes) (t : tpriv) : Prop :=
  match a, t with
  | ADh c, SDh false c' x =>
      c' = c /\ if is_ec c then kl_ec_rest K d = Some [] /\ kl_der_priv K d = Some (DEc c x) else x = d /\ List.length d = std_pub_len c
  | ARsa n, SRsa k => kl_rsa_rest K d = Some [] /\ kl_der_priv K d = Some (DRsa k) /\ t_rsa_bits (h_trad L) (t_rsa_pub (h_trad L) k) = n
  | _, _ => False
  end.
(** The same for public keys. *)
Definition trad_pub_half (L : hlib) (K : klib) (a : talg) (d : bytes) (t : tpub) : Prop :=
  match a, t with
  | ADh c, PDh false c' x => c' = c /\ if is_ec c then t_point (h_trad L) c d = Some x else x = d /\ List.length d = std_pub_len c
  | ARsa n, PRsa k => kl_rsa_pub K d = Some (Some k) /\ t_rsa_bits (h_trad L) k = n
  | _, _ => False
  end.
(** A post-quantum half with its seed. *)
Definition seeded_half (L : hlib) (K : klib) (k : pqpriv) (s : bytes) : Prop :=
  match ps_name k with MlKem _ | Frodo _ _ => True | _ => False end /\
  ps_seed k = Some s /\ List.length s = pq_priv_size K (ps_name k) /\ pq_half L K (ps_name k) s k.
(** The use of RFC 9180 by the composite-dhkem keys. *)
Definition with_rfc (b : bool) (t : tpriv) : tpriv := match t with SDh _ c d => SDh b c d | t => t end.
Definition with_rfc_pub (b : bool) (t : tpub) : tpub := match t with PDh _ c d => PDh b c d | t => t end.

(** The libraries read this key, once encoded, as the same key. *)
Definition pub_reads (L : hlib) (K : klib) (t : tpub) : Prop :=
  match t with
  | PDh _ c q => if is_ec c then t_point (h_trad L) c q = Some q else List.length q = std_pub_len c
  | PRsa k => kl_rsa_pub K (t_rsa_der (h_trad L) k) = Some (Some k)
  end.
Definition priv_reads (K : klib) (t : tpriv) : Prop :=
  match t with
  | SDh _ c d =>
      if is_ec c then kl_ec_rest K (kl_ec_der K c d) = Some [] /\ kl_der_priv K (kl_ec_der K c d) = Some (DEc c d)
      else List.length d = std_pub_len c
  | SRsa k => kl_rsa_rest K (kl_rsa_der K k) = Some [] /\ kl_der_priv K (kl_rsa_der K k) = Some (DRsa k)
  end.
(** Encoded as a number by Chempat. *)
Definition scalar_reads (K : klib) (c : curve) (d : bytes) : Prop :=
  if is_ec c then 0 <= kl_value K c d < 256 ^ Z.of_nat (curve_bits c) /\ kl_derive K c (kl_value K c d) = Some d
  else List.length d = std_pub_len c.

(** ** Chempat *)
(** Four bytes with the length, least significant first. *)
Definition le4 (n : nat) (l : bytes) : Prop :=
  exists a b c d, l = [a; b; c; d] /\ Z.of_nat n = a + 256 * b + 65536 * c + 16777216 * d.
(** The post-quantum half: what OneAsymmetricKey holds for that algorithm. *)
Definition pq_field (L : hlib) (K : klib) (q : pqname) (d : bytes) (k : pqpriv) : Prop :=
  match q with
  | MlKem a => exists x, PqKeyModel.from_one_asym_key (h_pq L)
      {| PqKeyModel.o_version := 0; PqKeyModel.o_oid := PqKeyModel.Plain (PqKeyModel.Kem a); PqKeyModel.o_priv := d;
         PqKeyModel.o_pub := None |} = Ok x /\ k = of_kem a x
  | q => kl_pq_priv K q d = Ok k
  end.
(** The traditional half: the raw key, or the number with any number of leading zero bytes. *)
Definition dh_field (K : klib) (c : curve) (d x : bytes) : Prop :=
  if is_ec c then kl_derive K c (value d) = Some x else x = d /\ List.length d = std_pub_len c.
(** The public key. *)
Definition dh_pub_field (L : hlib) (c : curve) (d x : bytes) : Prop :=
  if is_ec c then t_point (h_trad L) c d = Some x else x = d /\ List.length d = std_pub_len c.
Definition same_pq (k k' : pqpriv) : Prop := ps_name k = ps_name k' /\ ps_priv k = ps_priv k' /\ ps_pub k = ps_pub k'.

(** ** X-Wing *)
(** The key of the seed, with [s] remembered as its seed. *)
Definition xwing_made (L : hlib) (seed : bytes) (s : option bytes) (k : xpriv) : Prop :=
  exists e q, expanded L seed e /\ PqKeySpec.seeded (h_pq L) (PqKeyModel.Kem PqKeyModel.K768) (firstn 64 e) q /\
    k = {| xs_pq := q; xs_trad := skipn 64 e; xs_seed := s |}.
(** What the four lengths of a private key mean: a seed; the expanded seed; the raw halves; a seed and its raw halves. *)
Definition xwing_field (L : hlib) (d : bytes) (k : xpriv) : Prop :=
  (List.length d = 32%nat /\ xwing_made L d (Some d) k) \/
  (List.length d = 96%nat /\ xwing_made L d None k) \/
  (exists r x, List.length r = 2400%nat /\ List.length x = 32%nat /\ d = r ++ x /\
     k = {| xs_pq := {| PqKeyModel.k_alg := PqKeyModel.Kem PqKeyModel.K768; PqKeyModel.k_priv := r; PqKeyModel.k_pub := None;
                        PqKeyModel.k_seed := None |}; xs_trad := x; xs_seed := None |}) \/
  (exists s, List.length s = 32%nat /\ xwing_made L s (Some s) k /\ d = s ++ PqKeyModel.k_priv (xs_pq k) ++ xs_trad k).

(** ** Structures *)
(** What a privateKey and an optional publicKey field under the identifier of a composite algorithm mean. *)
Definition comp_field (L : hlib) (K : klib) (r : krow) (d : bytes) (pub : option bytes) (k : kpriv) : Prop :=
  exists q t, let n := pq_priv_size K (kr_pq r) in
    pq_half L K (kr_pq r) (firstn n d) q /\ trad_half L K (kr_trad r) (skipn n d) t /\
    k = {| ks_dhkem := kr_dhkem r; ks_pq := q; ks_trad := with_rfc (kr_dhkem r) t |} /\
    match pub with
    | None => True
    | Some b => exists rest, b = ps_pub q ++ rest /\ List.length (ps_pub q) = pq_pub_size K (kr_pq r) /\
                  trad_pub_half L K (kr_trad r) rest (trad_public (h_trad L) t)
    end.
(** The same for a Chempat algorithm; the post-quantum half of the public key is taken from the public field. *)
Definition chempat_field (L : hlib) (K : klib) (q : pqname) (c : curve) (d : bytes) (pub : option bytes) (k : cpriv) : Prop :=
  exists l a b q' x, d = l ++ a ++ b /\ le4 (List.length a) l /\ pq_field L K q a q' /\ dh_field K c b x /\
    match pub with
    | None => k = {| cs_pq := q'; cs_curve := c; cs_trad := x |}
    | Some p => exists pb rest, p = pb ++ rest /\ List.length pb = pq_pub_size K q /\ dh_pub_field L c rest (t_pub (h_trad L) c x) /\
        k = {| cs_pq := {| ps_name := q; ps_priv := ps_priv q'; ps_pub := pb; ps_seed := ps_seed q' |}; cs_curve := c; cs_trad := x |}
    end.
(** OneAsymmetricKey without its version. *)
Definition oak_field (L : hlib) (K : klib) (o : oid) (d : bytes) (pub : option bytes) (k : hpriv) : Prop :=
  match k with
  | HX k => o = [1; 3; 6; 1; 4; 1; 62253; 25722] /\ xwing_field L d k /\ (pub = None \/ pub = Some (xwing_public_bytes (xwing_public L k)))
  | HC k => exists q c, In (q, c, o) chempat_rows /\ chempat_field L K q c d pub k
  | HK k => exists r, In r all_rows /\ o = kr_oid r /\ comp_field L K r d pub k
  end.
(** SubjectPublicKeyInfo: the post-quantum key and what follows it. *)
Definition spki_field (L : hlib) (K : klib) (o : oid) (d : bytes) (k : hpub) : Prop :=
  match k with
  | QX k => o = [1; 3; 6; 1; 4; 1; 62253; 25722] /\ d = xp_pq k ++ xp_trad k /\ List.length (xp_pq k) = 1184%nat /\ List.length (xp_trad k) = 32%nat
  | QC k => exists rest, In (pp_name (cp_pq k), cp_curve k, o) chempat_rows /\ d = pp_bytes (cp_pq k) ++ rest /\
      List.length (pp_bytes (cp_pq k)) = pq_pub_size K (pp_name (cp_pq k)) /\ dh_pub_field L (cp_curve k) rest (cp_trad k)
  | QK k => exists r rest t, In r all_rows /\ o = kr_oid r /\ d = pp_bytes (kp_pq k) ++ rest /\ kr_pq r = pp_name (kp_pq k) /\
      kr_dhkem r = kp_dhkem k /\ List.length (pp_bytes (kp_pq k)) = pq_pub_size K (kr_pq r) /\ trad_pub_half L K (kr_trad r) rest t /\
      kp_trad k = with_rfc_pub (kr_dhkem r) t
  end.
(** A public key that is encoded and read as itself. *)
Definition hpub_reads (L : hlib) (K : klib) (k : hpub) : Prop :=
  match k with
  | QX k => List.length (xp_pq k) = 1184%nat /\ List.length (xp_trad k) = 32%nat
  | QC k => List.length (pp_bytes (cp_pq k)) = pq_pub_size K (pp_name (cp_pq k)) /\ dh_pub_field L (cp_curve k) (cp_trad k) (cp_trad k)
  | QK k => List.length (pp_bytes (kp_pq k)) = pq_pub_size K (pp_name (kp_pq k)) /\
      match kp_trad k with PDh rfc _ _ => rfc = kp_dhkem k | PRsa _ => True end /\ pub_reads L K (kp_trad k)
  end.
(** A DHKEM half is used with RFC 9180 in the composite-dhkem class and only there. *)
Definition flags_ok (k : kpriv) : Prop := match ks_trad k with SDh rfc _ _ => rfc = ks_dhkem k | SRsa _ => True end.
