(** A small concrete world, environment and messages for the examples and the
    counterexamples about the Mock CA.  A certificate is [subject; key; serial; kind]
    and its digest is itself; algorithm [n] is the protection type number [n]; a
    signature by a stateful key is its leaf index; every check that is not modelled
    succeeds; a request gets the certificate that is its template. *)
From Verif Require Export CASpec.
Local Open Scope Z_scope.

Definition w0 : world :=
  {| w_H := fun b => b;
     w_subject := fun c => [nth 0 c 0];
     w_key_of := fun c => Plain [nth 1 c 0];
     w_ptype := fun o => match o with
                         | [1] => Some PT_TRAD | [2] => Some PT_KEM | [3] => Some PT_DH | [4] => Some PT_MAC
                         | [5] => Some PT_PQ | [6] => Some PT_COMP | [7] => Some PT_STFL | _ => None end;
     w_is_stfl := fun c => nth 3 c 0 =? 7;
     w_sig_index := fun _ s => match s with [i] => Ok i | _ => Err EValueError end;
     w_tmpl_match := fun t c => bytes_eqb t [nth 2 c 0];
     w_conf_digest := fun _ _ c => Ok c;
     w_cfg := config_default |}.

Definition b16 (n : Z) : bytes := repeat n 16.

Definition v0 : env :=
  {| v_now := 0; v_alg_ok := fun _ => true; v_keys := fun _ => Ok tt; v_hdr := fun _ _ => Ok tt;
     v_sig := fun _ => Ok tt; v_trust := fun _ => Ok tt; v_ccr := fun _ => Ok tt;
     v_nested_trust := fun _ => Ok tt; v_kem := fun _ _ => Ok tt; v_rr := fun _ => Ok tt;
     v_orig := fun _ => Ok tt; v_conf := fun _ => Ok tt;
     v_issue := fun m => Ok (true, map q_template (m_reqs m), false);
     v_nonce := fun _ => b16 99; v_chal := fun _ => Ok 42; v_build := fun t => Ok t;
     v_pop_resp := fun _ => Ok tt; v_ss := fun _ => Ok [5]; v_genm := fun _ => Ok tt;
     v_protect := fun _ _ => Ok tt |}.

(** the same environment, but protecting a response fails *)
Definition v_noprotect : env :=
  {| v_now := 0; v_alg_ok := fun _ => true; v_keys := fun _ => Ok tt; v_hdr := fun _ _ => Ok tt;
     v_sig := fun _ => Ok tt; v_trust := fun _ => Ok tt; v_ccr := fun _ => Ok tt;
     v_nested_trust := fun _ => Ok tt; v_kem := fun _ _ => Ok tt; v_rr := fun _ => Ok tt;
     v_orig := fun _ => Ok tt; v_conf := fun _ => Ok tt;
     v_issue := fun m => Ok (true, map q_template (m_reqs m), false);
     v_nonce := fun _ => b16 99; v_chal := fun _ => Ok 42; v_build := fun t => Ok t;
     v_pop_resp := fun _ => Ok tt; v_ss := fun _ => Ok [5]; v_genm := fun _ => Ok tt;
     v_protect := fun _ _ => Err EValueError |}.

(** [mk b t]: a message of type [b] in transaction [t] with nonce [t], MAC-protected *)
Definition mk (b : body) (t : Z) : msg :=
  {| m_body := b; m_pvno := 2; m_tx := Some (b16 t); m_snonce := Some (b16 t); m_rnonce := None; m_sender := [t];
     m_alg := Some [4]; m_prot := Some [0]; m_extra := []; m_implicit := false; m_reqs := []; m_challenge := false;
     m_conf := []; m_rr := []; m_popdecr := []; m_genm := G_empty; m_inner := [] |}.

Definition prot (alg sig : Z) (extra : list cert) (m : msg) : msg :=
  {| m_body := m_body m; m_pvno := m_pvno m; m_tx := m_tx m; m_snonce := m_snonce m; m_rnonce := m_rnonce m;
     m_sender := m_sender m; m_alg := Some [alg]; m_prot := Some [sig]; m_extra := extra; m_implicit := m_implicit m;
     m_reqs := m_reqs m; m_challenge := m_challenge m; m_conf := m_conf m; m_rr := m_rr m; m_popdecr := m_popdecr m;
     m_genm := m_genm m; m_inner := m_inner m |}.
Definition unprot (extra : list cert) (m : msg) : msg :=
  {| m_body := m_body m; m_pvno := m_pvno m; m_tx := m_tx m; m_snonce := m_snonce m; m_rnonce := m_rnonce m;
     m_sender := m_sender m; m_alg := None; m_prot := None; m_extra := extra; m_implicit := m_implicit m;
     m_reqs := m_reqs m; m_challenge := m_challenge m; m_conf := m_conf m; m_rr := m_rr m; m_popdecr := m_popdecr m;
     m_genm := m_genm m; m_inner := m_inner m |}.
(** the nonces of a message *)
Definition nonces (sn : Z) (rn : option Z) (m : msg) : msg :=
  {| m_body := m_body m; m_pvno := m_pvno m; m_tx := m_tx m; m_snonce := Some (b16 sn); m_rnonce := option_map b16 rn;
     m_sender := m_sender m; m_alg := m_alg m; m_prot := m_prot m; m_extra := m_extra m; m_implicit := m_implicit m;
     m_reqs := m_reqs m; m_challenge := m_challenge m; m_conf := m_conf m; m_rr := m_rr m; m_popdecr := m_popdecr m;
     m_genm := m_genm m; m_inner := m_inner m |}.
(** requests for certificates [cs]; [imp]: implicit confirmation; [ch]: wants a challenge *)
Definition reqs (imp ch : bool) (p : popo) (cs : list cert) (m : msg) : msg :=
  {| m_body := m_body m; m_pvno := m_pvno m; m_tx := m_tx m; m_snonce := m_snonce m; m_rnonce := m_rnonce m;
     m_sender := m_sender m; m_alg := m_alg m; m_prot := m_prot m; m_extra := m_extra m; m_implicit := imp;
     m_reqs := map (fun c => {| q_key := Some (Plain [nth 1 c 0]); q_subject := [nth 0 c 0]; q_delta := None;
                                q_template := c; q_popo := p |}) cs;
     m_challenge := ch; m_conf := m_conf m; m_rr := m_rr m; m_popdecr := m_popdecr m;
     m_genm := m_genm m; m_inner := m_inner m |}.
Definition body_of (conf : list centry) (rr : list rdetail) (pop : list Z) (g : genm_kind) (inner : list msg) (m : msg) : msg :=
  {| m_body := m_body m; m_pvno := m_pvno m; m_tx := m_tx m; m_snonce := m_snonce m; m_rnonce := m_rnonce m;
     m_sender := m_sender m; m_alg := m_alg m; m_prot := m_prot m; m_extra := m_extra m; m_implicit := m_implicit m;
     m_reqs := m_reqs m; m_challenge := m_challenge m; m_conf := conf; m_rr := rr; m_popdecr := pop;
     m_genm := g; m_inner := inner |}.

(** certificates *)
Definition cA : cert := [1; 11; 21; 0].
Definition cB : cert := [2; 12; 22; 0].
Definition cC : cert := [3; 13; 23; 0].
Definition cS : cert := [4; 14; 24; 7].    (* stateful signature key *)
Definition cS' : cert := [4; 14; 25; 7].   (* another certificate of the same key *)

(** initial registration in transaction [t] for the certificate [c] *)
Definition ir (t : Z) (c : cert) : msg := reqs false false PopoAbsent [c] (mk B_ir t).
Definition ir_implicit (t : Z) (c : cert) : msg := reqs true false PopoAbsent [c] (mk B_ir t).
Definition conf (t : Z) (st : cstatus) (c : cert) : msg :=
  nonces 50 (Some 99) (body_of [{| k_id := 0; k_hash := Some c; k_status := st; k_alg := None |}] [] [] G_empty [] (mk B_certConf t)).
(** revocation of the certificate with serial number [n], signed by [by_] *)
Definition revoke (t : Z) (by_ : cert) (n : Z) (rs : reason) : msg :=
  prot 1 0 [by_] (body_of [] [{| d_fields := Ok tt; d_template := [n]; d_reason := Ok rs |}] [] G_empty [] (mk B_rr t)).
(** agreement on a KEM secret *)
Definition kem_setup (t : Z) (c : cert) : msg := unprot [c] (body_of [] [] [] G_kem [] (mk B_genm t)).
Definition nested (t : Z) (by_ : cert) (inner : list msg) : msg :=
  prot 1 0 [by_] (body_of [] [] [] G_empty inner (mk B_nested t)).
Definition popdecr (t : Z) (ns : list Z) : msg := body_of [] [] ns G_empty [] (mk B_popdecr t).

Definition with_v0 (l : list msg) : history := map (fun m => (m, v0)) l.
Definition answers_to (l : list msg) : list (body * bool) :=
  map (fun x => match snd x with Reply r => (r_body r, r_ok r) | Http500 => (B_error, false) end) (log w0 ca_init (with_v0 l)).
Definition states (s : ca) (cs : list cert) : list cert_state := map (get_cert_state (w_H w0) (s_db s)) cs.
