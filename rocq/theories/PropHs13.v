(** C33, C34, C35, C39, C40 for DTLS 1.3: what a completed handshake has
    established.  The evidence is stated in [Evidence13], over the endpoint's
    transcript, configuration and provider. *)
From Verif Require Import Prelude Types Codec Codec12 Codec13 Env Config Prf Monad Timer Engine13 Client13
  Server13 Engine12 Client12 Server12 Context12 Toy History12 History13 Conn12 Conn13 Done12 Out13 Evidence12 Evidence13 ClientInv12
  ClientStep12 ClientStep13 ClientDone13 ServerStep13 ServerDone13.

(** The handshake messages sent and received so far, the negotiated suite, and the
    exporter secret of an endpoint. *)
Definition eng_of13 (s : End13) : Eng13 := match s with XC c => xc_eng c | XS c => xs_eng c end.
Definition transcript13 (s : End13) : bytes := g_transcript (eng_of13 s).
Definition suite13_of (s : End13) : option N := g_suite (eng_of13 s).
Definition exporter13_of (s : End13) : option bytes := g_exp (eng_of13 s).

Lemma cks_connected os : In OConnected os -> In LE_Connected (cks os).
Proof. intros H. apply in_flat_map. exists OConnected. split; [exact H|left; reflexivity]. Qed.
Lemma cks_keying os km p : In (OKeying km p) os -> In (LE_Keying km p) (cks os).
Proof. intros H. apply in_flat_map. exists (OKeying km p). split; [exact H|left; reflexivity]. Qed.
Lemma cks_count f g os : (forall o, g o = existsb f (ck_of o)) ->
  (List.length (filter g os) <= List.length (filter f (cks os)))%nat.
Proof.
  intros H. induction os as [|o os IH]; [apply le_n|]. change (cks (o :: os)) with (ck_of o ++ cks os).
  cbn [filter]. rewrite filter_app, List.app_length, H.
  destruct o; cbn [ck_of existsb filter List.length Nat.add]; try exact IH.
  - destruct (f LE_Connected); cbn [orb List.length Nat.add]; lia.
  - destruct (f _); cbn [orb List.length Nat.add]; lia.
Qed.
Definition lec (v : LocalEvent12) : bool := match v with LE_Connected => true | _ => false end.
Definition lek (v : LocalEvent12) : bool := match v with LE_Keying _ _ => true | _ => false end.

(** What the reports in [os] are, for either role. *)
Lemma reports E (s : list LocalEvent12) os srtp (suite : option N) (exp : option bytes) :
  (cks os ++ s = [] \/ exists k, cks os ++ s = LE_Connected :: k /\
    (k = [] \/ exists km p cs x, k = [LE_Keying km p] /\ srtp = Some p /\ suite = Some cs /\ exp = Some x /\ keying_ok13 E cs x p km)) ->
  (List.length (filter is_connected os) <= 1)%nat /\
  forall km p, In (OKeying km p) os ->
    In OConnected os /\ (List.length (filter is_keying os) <= 1)%nat /\
    exists cs x, srtp = Some p /\ suite = Some cs /\ exp = Some x /\ keying_ok13 E cs x p km.
Proof.
  intros H. assert (H' : cks os = [] \/ cks os = [LE_Connected] \/ exists km p cs x, cks os = [LE_Connected; LE_Keying km p] /\
    srtp = Some p /\ suite = Some cs /\ exp = Some x /\ keying_ok13 E cs x p km).
  { destruct H as [H|(k & H & Hk)]; [left; destruct (cks os); [reflexivity|discriminate]|].
    destruct (cks os) as [|v l]; [auto|]. injection H as -> H. right.
    destruct Hk as [->|(km & p & cs & x & -> & R)]; [left; destruct l; [reflexivity|discriminate]|].
    destruct l as [|w l]; [auto|]. injection H as -> H. right. exists km, p, cs, x. destruct l; [auto|discriminate]. }
  assert (C : (List.length (filter is_connected os) <= List.length (filter lec (cks os)))%nat) by (apply cks_count; intros []; reflexivity).
  assert (K : (List.length (filter is_keying os) <= List.length (filter lek (cks os)))%nat) by (apply cks_count; intros []; reflexivity).
  assert (I : forall v, In v (cks os) -> v = LE_Connected -> In OConnected os).
  { intros v Hv ->. apply in_flat_map in Hv. destruct Hv as (o & Ho & Hv). destruct o; try solve [destruct Hv]; try exact Ho; cbn [ck_of In] in Hv; exfalso; destruct Hv as [Hv|Hv]; [discriminate|exact Hv]. }
  split.
  - destruct H' as [H'|[H'|(km & p & cs & x & H' & _)]]; rewrite H' in C; cbn in C; lia.
  - intros km p Hk. apply cks_keying in Hk. destruct H' as [H'|[H'|(km' & p' & cs & x & H' & R)]]; rewrite H' in *.
    + destruct Hk.
    + destruct Hk as [Hk|[]]; discriminate.
    + destruct Hk as [Hk|[Hk|[]]]; [discriminate|]. injection Hk as <- <-.
      split; [apply (I LE_Connected); [left; reflexivity|reflexivity]|]. split; [cbn in K; lia|]. eauto.
Qed.

Lemma client_view E cfg cert key s0 h c : start13 E cfg cert key s0 -> history13 E s0 h (XC c) -> In OConnected (outputs h) ->
  exists kx cs a b hs exp, g_suite (xc_eng c) = Some cs /\ g_exp (xc_eng c) = Some exp /\
    client_key13 E cfg cert key s0 (g_transcript (xc_eng c)) kx /\
    server_done13 E cfg (g_transcript (xc_eng c)) kx cs a b hs (xc_certs c) exp /\
    (forall p, xc_srtp c = Some p -> In p srtp_known) /\
    (forall x, In (OPeerCert x) (outputs h) -> hd_error (xc_certs c) = Some x).
Proof.
  intros Hs Hh HC. destruct (client_done13_facts _ _ _ _ _ _ _ Hs Hh) as (X & (J1 & J2 & J3) & HX).
  destruct J2 as [J2|(L & F & _)]; [apply cks_connected in HC; apply app_eq_nil in J2; destruct J2 as [J2 _]; rewrite J2 in HC; destruct HC|].
  destruct (xk_keys _ _ _ _ _ F) as (kx & cs & a & b & hs & P1 & P2 & P3 & P4 & P5 & _ & _ & _ & P9); [lia|].
  destruct P9 as (exp & Q1 & Q2); [lia|]. exists kx, cs, a, b, hs, exp.
  split; [exact P1|]. split; [exact Q1|]. split; [|split; [exact Q2|split; [apply (xk_srtp _ _ _ _ _ F)|exact J3]]].
  destruct P5 as [P5|P5]; [left; exact P5|right]. apply HX, P5.
Qed.
Lemma server_view E cfg cert key h c : reach13 E cfg cert key h (XS c) -> In OConnected (outputs h) ->
  exists cs a b hs exp, g_suite (xs_eng c) = Some cs /\ g_exp (xs_eng c) = Some exp /\
    client_done13 E cfg (xs_secret c) (g_transcript (xs_eng c)) (xs_srtp c) cs a b hs exp (xs_certs c) /\
    (forall x, In (OPeerCert x) (outputs h) -> hd_error (xs_certs c) = Some x).
Proof.
  intros H HC. destruct (server_done13_facts _ _ _ _ _ _ H) as (J1 & J2 & J3).
  destruct J2 as [J2|(L & F & _)]; [apply cks_connected in HC; apply app_eq_nil in J2; destruct J2 as [J2 _]; rewrite J2 in HC; destruct HC|].
  destruct (yk_keys _ _ _ _ F) as (cs & a & b & hs & P1 & P2 & P3 & P4 & _ & P6); [lia|].
  destruct P6 as (exp & Q1 & _ & _ & _ & Q2); [lia|]. exists cs, a, b, hs, exp.
  split; [exact P1|]. split; [exact Q1|]. split; [apply Q2; lia|exact J3].
Qed.
Lemma report_view E cfg cert key h s : reach13 E cfg cert key h s ->
  (List.length (filter is_connected (outputs h)) <= 1)%nat /\
  forall km p, In (OKeying km p) (outputs h) ->
    In OConnected (outputs h) /\ (List.length (filter is_keying (outputs h)) <= 1)%nat /\
    exists cs x, match s with XC c => xc_srtp c | XS c => xs_srtp c end = Some p /\
      suite13_of s = Some cs /\ exporter13_of s = Some x /\ keying_ok13 E cs x p km.
Proof.
  intros H. destruct s as [c|c].
  - destruct H as (s0 & Hs & Hh). destruct (client_done13_facts _ _ _ _ _ _ _ Hs Hh) as (X & (J1 & J2 & J3) & HX).
    apply (reports E (filter is_ck (xc_events c))). destruct J2 as [J2|(_ & _ & J2)]; auto.
  - destruct (server_done13_facts _ _ _ _ _ _ H) as (J1 & J2 & J3).
    apply (reports E (filter is_ck (xs_events c))). destruct J2 as [J2|(_ & _ & J2)]; auto.
Qed.

(** ** C33 *)

(** After [Connected], the transcript contains a Finished of the peer whose
    verify_data is the one of the handshake traffic secret of the peer's direction
    (RFC 8446, 4.4.4) over everything before it; the traffic secrets come from a key
    exchange and the hellos that precede it. *)
Definition finished_ok13 (E : Env) (s : End13) (cs : N) : Prop :=
  exists before vd chs shs, has13 (transcript13 s) before MT_Finished vd /\
    verify_data13 E cs (match s with XC _ => shs | XS _ => chs end) before vd /\
    exists shared hellos raw after hs,
      before = hellos ++ tmsg13 MT_ServerHello raw ++ after /\
      schedule13 E cs shared (hellos ++ tmsg13 MT_ServerHello raw) chs shs hs.

Lemma has13_trans T b mt x b' mt' x' : has13 T b mt x -> has13 b b' mt' x' -> has13 T b' mt' x'.
Proof. intros (r & ->) (r' & ->). exists (r' ++ tmsg13 mt x ++ r). rewrite !app_assoc. reflexivity. Qed.

Theorem C33_connected_finished13 : forall E cfg cert key h s, reach13 E cfg cert key h s ->
  In OConnected (outputs h) ->
  exists cs, suite13_of s = Some cs /\ finished_ok13 E s cs.
Proof.
  intros E cfg cert key h s H HC. destruct s as [c|c].
  - destruct H as (s0 & Hs & Hh). destruct (client_view _ _ _ _ _ _ _ Hs Hh HC) as (kx & cs & a & b & hs & exp & P1 & P2 & P3 & P4 & _).
    exists cs. split; [exact P1|]. destruct P4 as (before & vd & Q1 & Q2 & _ & (b2 & r2 & sc & sg & lf & R1 & _ & _ & _ & (b3 & r3 & es & S1 & _ & _ & _ & T1))).
    destruct T1 as (b4 & r4 & hh & es4 & peer & shared & U1 & _ & _ & _ & _ & _ & _ & _ & _ & _ & _ & _ & U2).
    exists before, vd, a, b. split; [exact Q1|]. split; [exact Q2|].
    destruct (has13_trans _ _ _ _ _ _ _ R1 (has13_trans _ _ _ _ _ _ _ S1 U1)) as (after & Ha).
    exists shared, b4, r4, after, hs. split; [exact Ha|exact U2].
  - destruct (server_view _ _ _ _ _ _ H HC) as (cs & a & b & hs & exp & P1 & P2 & P3 & _).
    exists cs. split; [exact P1|]. destruct P3 as (before & vd & Q1 & Q2 & Q3). exists before, vd, a, b.
    split; [exact Q1|]. split; [exact Q2|].
    assert (G : forall T, client_keys13 E cfg (xs_secret c) T (xs_srtp c) cs a b hs exp ->
      exists shared hellos raw after hs, T = hellos ++ tmsg13 MT_ServerHello raw ++ after /\
        schedule13 E cs shared (hellos ++ tmsg13 MT_ServerHello raw) a b hs).
    { intros T (b2 & v2 & R1 & _ & _ & (b3 & r3 & g3 & sh3 & S1 & _ & S2)).
      destruct (has13_trans _ _ _ _ _ _ _ R1 S1) as (after & Ha). exists sh3, b3, r3, after, hs. auto. }
    destruct Q3 as [[_ Q3]|Q3]; [exact (G _ Q3)|].
    destruct Q3 as (b2 & r2 & sc & sg & lf & R1 & _ & _ & _ & (b3 & r3 & cx & es & S1 & _ & _ & _ & T1)).
    destruct (G _ T1) as (shared & hellos & raw & after & hs' & Hb & Hq).
    exists shared, hellos, raw. destruct R1 as (x1 & ->). destruct S1 as (x2 & ->). rewrite Hb. eexists. exists hs'. split; [|exact Hq].
    rewrite <- !app_assoc. reflexivity.
Qed.
Print Assumptions C33_connected_finished13.

(** [Connected] is reported at most once. *)
Theorem C33_connected_once13 : forall E cfg cert key h s, reach13 E cfg cert key h s ->
  (List.length (filter is_connected (outputs h)) <= 1)%nat.
Proof. intros E cfg cert key h s H. apply (report_view _ _ _ _ _ _ H). Qed.
Print Assumptions C33_connected_once13.

Example C33_case13 : reach13 toy config_default [48; 7] (toy_key 7) (fst xc_run) (snd xc_run) /\
  In OConnected (outputs (fst xc_run)) /\
  reach13 toy2 config_default [48; 9] (toy_key 9) (fst xs_run) (snd xs_run) /\ In OConnected (outputs (fst xs_run)).
Proof. split; [exact xc_run_reach|]. split; [vm_compute; tauto|]. split; [exact xs_run_reach|vm_compute; tauto]. Qed.

(** ** C34 *)

(** A connected client has in its transcript, in this order: a ServerHello with a key
    share for the client's own ephemeral key, a non-empty certificate list, a
    CertificateVerify that verifies under the first certificate over everything
    before it, and a Finished under the secret of that key exchange.  Any certificate
    reported is that first one. *)
Theorem C34_server_authenticated13 : forall E cfg cert key s0 h c,
  start13 E cfg cert key s0 -> history13 E s0 h (XC c) -> In OConnected (outputs h) ->
  exists kx cs chs shs hs leaf more exp,
    suite13_of (XC c) = Some cs /\ exporter13_of (XC c) = Some exp /\
    client_key13 E cfg cert key s0 (transcript13 (XC c)) kx /\
    server_done13 E cfg (transcript13 (XC c)) kx cs chs shs hs (leaf :: more) exp /\
    (forall x, In (OPeerCert x) (outputs h) -> x = leaf).
Proof.
  intros E cfg cert key s0 h c Hs Hh HC.
  destruct (client_view _ _ _ _ _ _ _ Hs Hh HC) as (kx & cs & a & b & hs & exp & P1 & P2 & P3 & P4 & P5 & P6).
  pose proof P4 as (before & vd & _ & _ & _ & (b2 & r2 & sc & sg & lf & _ & _ & R & _)).
  destruct (xc_certs c) as [|leaf more] eqn:Hc; [discriminate|].
  exists kx, cs, a, b, hs, leaf, more, exp. split; [exact P1|]. split; [exact P2|]. split; [exact P3|]. split; [exact P4|].
  intros x Hx. specialize (P6 x Hx). injection P6 as ->. reflexivity.
Qed.
Print Assumptions C34_server_authenticated13.

Example C34_case13 : match snd xc_run with XC c => xc_state c = CT_AwaitApplicationData | XS _ => False end /\
  In OConnected (outputs (fst xc_run)) /\ In (OPeerCert [48; 9]) (outputs (fst xc_run)).
Proof. split; [vm_compute; reflexivity|]. split; vm_compute; tauto. Qed.

(** ** C35 *)

(** If a client certificate was reported, the server is connected only if that
    certificate is the first of a list in the transcript, and a CertificateVerify
    after it verifies under it over everything before; both precede the client's
    Finished. *)
Theorem C35_client_cert_proved13 : forall E cfg cert key h c x,
  reach13 E cfg cert key h (XS c) -> In OConnected (outputs h) -> In (OPeerCert x) (outputs h) ->
  exists cs chs shs hs exp more before vd, suite13_of (XS c) = Some cs /\
    has13 (transcript13 (XS c)) before MT_Finished vd /\ verify_data13 E cs chs before vd /\
    client_proof13 E cfg (xs_secret c) before (xs_srtp c) cs chs shs hs exp (x :: more).
Proof.
  intros E cfg cert key h c x H HC Hx. destruct (server_view _ _ _ _ _ _ H HC) as (cs & a & b & hs & exp & P1 & P2 & P3 & P4).
  specialize (P4 _ Hx). destruct (xs_certs c) as [|leaf more]; [discriminate|]. injection P4 as ->.
  destruct P3 as (before & vd & Q1 & Q2 & [[Q3 _]|Q3]); [discriminate|].
  exists cs, a, b, hs, exp, more, before, vd. auto.
Qed.
Print Assumptions C35_client_cert_proved13.

(** The same for a certificate the server holds and has not yet reported. *)
Theorem C35_client_cert_held13 : forall E cfg cert key h c leaf more,
  reach13 E cfg cert key h (XS c) -> In OConnected (outputs h) -> xs_certs c = leaf :: more ->
  exists cs chs shs hs exp before vd, suite13_of (XS c) = Some cs /\
    has13 (transcript13 (XS c)) before MT_Finished vd /\ verify_data13 E cs chs before vd /\
    client_proof13 E cfg (xs_secret c) before (xs_srtp c) cs chs shs hs exp (leaf :: more).
Proof.
  intros E cfg cert key h c leaf more H HC Hc. destruct (server_view _ _ _ _ _ _ H HC) as (cs & a & b & hs & exp & P1 & P2 & P3 & P4).
  rewrite Hc in P3. destruct P3 as (before & vd & Q1 & Q2 & [[Q3 _]|Q3]); [discriminate|].
  exists cs, a, b, hs, exp, before, vd. auto.
Qed.
Print Assumptions C35_client_cert_held13.

Example C35_case13 : In OConnected (outputs (fst xs_run)) /\ In (OPeerCert [48; 7]) (outputs (fst xs_run)).
Proof. split; vm_compute; tauto. Qed.

(** ** C39 *)

(** Client: the negotiated suite is the one of a ServerHello in the transcript and one
    the configuration allows; the key exchange is in the group of the client's own
    offered key pair; the SRTP profile is one this library offers. *)
Theorem C39_client_parameters13 : forall E cfg cert key s0 h c,
  start13 E cfg cert key s0 -> history13 E s0 h (XC c) -> In OConnected (outputs h) ->
  exists cs before raw hello es kx peer shared, suite13_of (XC c) = Some cs /\
    has13 (transcript13 (XC c)) before MT_ServerHello raw /\ p_sh13 raw = Some (hello, []) /\
    sh_suite hello = cs /\ In cs (cfg_suites13 E cfg) /\
    sh_exts hello = Some es /\ (exists d, In (X_VERSIONS, d) es /\ p_versions_sh d = Some V_DTLS13) /\
    client_key13 E cfg cert key s0 (transcript13 (XC c)) kx /\
    (exists d, In (X_KEYSHARE, d) es /\ p_share_sh d = Some (fst (fst kx), peer)) /\
    e_kx_complete E (fst (fst kx)) (snd (fst kx)) peer = Some shared /\
    (forall km p, In (OKeying km p) (outputs h) -> In p srtp_known).
Proof.
  intros E cfg cert key s0 h c Hs Hh HC. assert (H : reach13 E cfg cert key h (XC c)) by (exists s0; auto).
  destruct (client_view _ _ _ _ _ _ _ Hs Hh HC) as (kx & cs & a & b & hs & exp & P1 & P2 & P3 & P4 & P5 & P6).
  destruct P4 as (before & vd & Q1 & _ & _ & (b2 & r2 & sc & sg & lf & R1 & _ & _ & _ & (b3 & r3 & es3 & S1 & _ & _ & _ & T1))).
  destruct T1 as (b4 & r4 & hh & es4 & peer & shared & U1 & U2 & U3 & U4 & U5 & U6 & U7 & U8 & U9 & U10 & U11 & U12 & U13).
  exists cs, b4, r4, hh, es4, kx, peer, shared. split; [exact P1|].
  split; [exact (has13_trans _ _ _ _ _ _ _ Q1 (has13_trans _ _ _ _ _ _ _ R1 (has13_trans _ _ _ _ _ _ _ S1 U1)))|].
  do 8 (split; [assumption|]). intros km p Hk. destruct (report_view _ _ _ _ _ _ H) as [_ K].
  destruct (K _ _ Hk) as (_ & _ & cs' & x & K1 & _). exact (P5 _ K1).
Qed.
Print Assumptions C39_client_parameters13.

(** Server: the negotiated suite, SRTP profile and group with key share were offered by
    a ClientHello in the transcript, which offers DTLS 1.3; suite and group are allowed
    by the configuration. *)
Theorem C39_server_parameters13 : forall E cfg cert key h c,
  reach13 E cfg cert key h (XS c) -> In OConnected (outputs h) ->
  exists cs before raw auto hello vs group shares peer, suite13_of (XS c) = Some cs /\
    has13 (transcript13 (XS c)) before MT_ClientHello raw /\ p_ch13 auto raw = Some (hello, []) /\
    lists13 hello X_VERSIONS p_versions_ch vs /\ In V_DTLS13 vs /\
    In cs (h_suites hello) /\ In cs (cfg_suites13 E cfg) /\
    In group (cfg_groups E cfg) /\ lists13 hello X_KEYSHARE p_shares_ch shares /\ In (group, peer) shares /\
    (exists kx tick shared hellos rawsh chs shs hs, e_kx_start E group tick = Some kx /\
       e_kx_complete E group (fst kx) peer = Some shared /\
       has13 (transcript13 (XS c)) hellos MT_ServerHello rawsh /\
       schedule13 E cs shared (hellos ++ tmsg13 MT_ServerHello rawsh) chs shs hs) /\
    (forall km p, In (OKeying km p) (outputs h) ->
       exists ps mki, lists13 hello X_SRTP p_srtp (ps, mki) /\ In p ps /\ In p srtp_known).
Proof.
  intros E cfg cert key h c H HC. destruct (server_view _ _ _ _ _ _ H HC) as (cs & a & b & hs & exp & P1 & P2 & P3 & P4).
  destruct P3 as (before & vd & Q1 & _ & Q3).
  assert (G : exists T, client_keys13 E cfg (xs_secret c) T (xs_srtp c) cs a b hs exp /\
    forall b' mt x, has13 T b' mt x -> has13 (transcript13 (XS c)) b' mt x).
  { destruct Q3 as [[_ Q3]|(b2 & r2 & sc & sg & lf & R1 & _ & _ & _ & (b3 & r3 & cx & es & S1 & _ & _ & _ & T1))].
    - exists before. split; [exact Q3|]. intros b' mt x Hx. exact (has13_trans _ _ _ _ _ _ _ Q1 Hx).
    - exists b3. split; [exact T1|]. intros b' mt x Hx.
      exact (has13_trans _ _ _ _ _ _ _ Q1 (has13_trans _ _ _ _ _ _ _ R1 (has13_trans _ _ _ _ _ _ _ S1 Hx))). }
  destruct G as (T & (b2 & v2 & R1 & _ & _ & (b3 & r3 & g3 & sh3 & S1 & S2 & S3)) & HT).
  destruct S2 as (b4 & r4 & auto & hh & l & peer & tick & kx & U1 & U2 & U3 & U4 & (vs & U5 & U6) & U7 & U8 & U9 & U10 & U11 & U12 & U13 & U14 & U15).
  exists cs, b4, r4, auto, hh, vs, g3, l, peer. split; [exact P1|].
  split; [exact (HT _ _ _ (has13_trans _ _ _ _ _ _ _ R1 (has13_trans _ _ _ _ _ _ _ S1 U1)))|].
  do 8 (split; [assumption|]). split.
  - exists kx, tick, sh3, b3, r3, a, b, hs. do 2 (split; [assumption|]). split; [|exact S3].
    exact (HT _ _ _ (has13_trans _ _ _ _ _ _ _ R1 S1)).
  - intros km p Hk. destruct (report_view _ _ _ _ _ _ H) as [_ K].
    destruct (K _ _ Hk) as (_ & _ & cs' & x & K1 & _). exact (U14 _ K1).
Qed.
Print Assumptions C39_server_parameters13.

(** Keying material is reported only after [Connected], at most once, and is the
    exporter output (RFC 5764, RFC 8446 7.5) of the exporter secret for the negotiated
    profile. *)
Theorem C39_keying13 : forall E cfg cert key h s km p, reach13 E cfg cert key h s ->
  In (OKeying km p) (outputs h) ->
  In OConnected (outputs h) /\ (List.length (filter is_keying (outputs h)) <= 1)%nat /\
  exists cs exp, suite13_of s = Some cs /\ exporter13_of s = Some exp /\ keying_ok13 E cs exp p km /\
    exists hs T vd T', has13 (transcript13 s) T MT_Finished vd /\ T' = T ++ tmsg13 MT_Finished vd /\
      exporter13 E cs hs T' exp.
Proof.
  intros E cfg cert key h s km p H Hk. destruct (report_view _ _ _ _ _ _ H) as [_ K].
  destruct (K _ _ Hk) as (K1 & K2 & cs & x & K3 & K4 & K5 & K6).
  split; [exact K1|]. split; [exact K2|]. exists cs, x. do 3 (split; [assumption|]). destruct s as [c|c].
  - destruct H as (s0 & Hs & Hh). destruct (client_view _ _ _ _ _ _ _ Hs Hh K1) as (kx & cs' & a & b & hs & exp & P1 & P2 & P3 & P4 & _).
    unfold suite13_of, exporter13_of in *; cbn [eng_of13] in *. rewrite P1 in K4. rewrite P2 in K5. injection K4 as <-. injection K5 as <-.
    destruct P4 as (before & vd & Q1 & _ & Q2 & _). exists hs, before, vd, (before ++ tmsg13 MT_Finished vd). auto.
  - destruct (server_view _ _ _ _ _ _ H K1) as (cs' & a & b & hs & exp & P1 & P2 & P3 & _).
    unfold suite13_of, exporter13_of in *; cbn [eng_of13] in *. rewrite P1 in K4. rewrite P2 in K5. injection K4 as <-. injection K5 as <-.
    destruct P3 as (before & vd & Q1 & _ & Q3).
    destruct Q3 as [[_ (b2 & v2 & R1 & _ & R2 & _)]|(b2 & r2 & sc & sg & lf & R1 & _ & _ & _ & (b3 & r3 & cx & es & S1 & _ & _ & _ & (b4 & v4 & U1 & _ & U2 & _)))].
    + exists hs, b2, v2, (b2 ++ tmsg13 MT_Finished v2). split; [exact (has13_trans _ _ _ _ _ _ _ Q1 R1)|]. auto.
    + exists hs, b4, v4, (b4 ++ tmsg13 MT_Finished v4). split; [|auto].
      exact (has13_trans _ _ _ _ _ _ _ Q1 (has13_trans _ _ _ _ _ _ _ R1 (has13_trans _ _ _ _ _ _ _ S1 U1))).
Qed.
Print Assumptions C39_keying13.

Example C39_case13 : existsb is_keying (outputs (fst xc_run)) = true /\ existsb is_keying (outputs (fst xs_run)) = true.
Proof. split; vm_compute; reflexivity. Qed.

(** ** C40 *)

(** With the cookie enabled a server is connected only to a client whose hello
    carried the MAC of the hello's random under the server's secret. *)
Theorem C40_connected_cookie13 : forall E cfg cert key h c,
  reach13 E cfg cert key h (XS c) -> c_cookie cfg = true -> In OConnected (outputs h) ->
  exists before raw auto hello mac, has13 (transcript13 (XS c)) before MT_ClientHello raw /\
    p_ch13 auto raw = Some (hello, []) /\ lists13 hello X_COOKIE p_cookie_ext mac /\
    e_hmac E H_SHA256 (xs_secret c) (h_random hello) = Some mac.
Proof.
  intros E cfg cert key h c H Hck HC. destruct (server_view _ _ _ _ _ _ H HC) as (cs & a & b & hs & exp & P1 & P2 & P3 & P4).
  destruct P3 as (before & vd & Q1 & _ & Q3).
  assert (G : exists T, client_keys13 E cfg (xs_secret c) T (xs_srtp c) cs a b hs exp /\
    forall b' mt x, has13 T b' mt x -> has13 (transcript13 (XS c)) b' mt x).
  { destruct Q3 as [[_ Q3]|(b2 & r2 & sc & sg & lf & R1 & _ & _ & _ & (b3 & r3 & cx & es & S1 & _ & _ & _ & T1))].
    - exists before. split; [exact Q3|]. intros b' mt x Hx. exact (has13_trans _ _ _ _ _ _ _ Q1 Hx).
    - exists b3. split; [exact T1|]. intros b' mt x Hx.
      exact (has13_trans _ _ _ _ _ _ _ Q1 (has13_trans _ _ _ _ _ _ _ R1 (has13_trans _ _ _ _ _ _ _ S1 Hx))). }
  destruct G as (T & (b2 & v2 & R1 & _ & _ & (b3 & r3 & g3 & sh3 & S1 & S2 & S3)) & HT).
  destruct S2 as (b4 & r4 & auto & hh & l & peer & tick & kx & U1 & U2 & U3 & U4 & _ & U7 & U8 & U9 & U10 & U11 & U12 & U13 & U14 & U15).
  destruct (U15 Hck) as (mac & V1 & V2). exists b4, r4, auto, hh, mac. split; [|auto].
  exact (HT _ _ _ (has13_trans _ _ _ _ _ _ _ R1 (has13_trans _ _ _ _ _ _ _ S1 U1))).
Qed.
Print Assumptions C40_connected_cookie13.

Example C40_case13 : c_cookie config_default = true /\ In OConnected (outputs (fst xs_run)).
Proof. split; [reflexivity|vm_compute; tauto]. Qed.
