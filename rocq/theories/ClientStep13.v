(** The steps of a DTLS 1.3 client and the invariant of its handshake. *)
From Coq Require Import String.
From Verif Require Import Prelude PreludeFacts Types Codec Codec12 Codec13 Record12 Record13 Monad MonadFacts
  Timer Env Config Prf Window Engine12 Client12 Engine13 Client13 Server13 Frame13 Lift13 Evidence12 Evidence13
  ClientInv12 ClientStep12 HsEng13 ClientInv13.
Close Scope string_scope.

(** How far the handshake is. *)
Definition xr (st : CState13) : N :=
  match st with
  | CT_SendClientHello => 0 | CT_AwaitServerHello => 1 | CT_AwaitEncryptedExtensions => 2
  | CT_AwaitCertificateRequest => 3 | CT_AwaitCertificate => 4 | CT_AwaitCertificateVerify => 5
  | CT_AwaitFinished => 6 | CT_SendCertificate => 7 | CT_SendCertificateVerify => 8
  | CT_SendFinished => 9 | CT_AwaitApplicationData => 10 | CT_HalfClosedLocal => 11 | CT_Closed => 12
  end.

(** The events about completion. *)
Definition is_ck (ev : LocalEvent12) : bool := match ev with LE_PeerCert => false | _ => true end.

(** What the invariant is about stays, except that the transcript may grow. *)
Record KX0 (a b : Client13) : Prop := {
  kx_eng : G0 (xc_eng a) (xc_eng b);
  kx_srtp : xc_srtp b = xc_srtp a;
  kx_certs : xc_certs b = xc_certs a;
  kx_hs : xc_hs b = xc_hs a;
  kx_chs : xc_chs b = xc_chs a;
  kx_shs : xc_shs b = xc_shs a;
  kx_ev : filter is_ck (xc_events b) = filter is_ck (xc_events a) }.
Definition KX (a b : Client13) : Prop := KX0 a b /\ g_exp (xc_eng b) = g_exp (xc_eng a).
Lemma KX0_po : preorder KX0.
Proof.
  split; [intro a; split; auto; apply G0_po|].
  intros a b c [] []. split; try congruence. eapply G0_po; eassumption.
Qed.
Lemma KX_po : preorder KX.
Proof.
  split; [intro a; split; [apply KX0_po|reflexivity]|].
  intros a b c [H1 H2] [K1 K2]. split; [eapply KX0_po; eassumption|congruence].
Qed.
Lemma KX_eng c e : G (xc_eng c) e -> KX c (set_xc_eng e c).
Proof. intros [H1 H2]. split; [split; auto|exact H2]. Qed.

Lemma ok_inj {A} (a b : A) : Ok a = Ok b -> a = b.
Proof. intros [= ->]; reflexivity. Qed.

Section ClientFacts.
Variables (E : Env) (cfg : Config).
(** The key pair of a client that continues an auto-sensing one. *)
Variable X : N * bytes * bytes -> Prop.

Record xfacts (n : N) (c : Client13) : Prop := {
  xk_cfg : g_cfg (xc_eng c) = cfg;
  xk_srtp : forall p, xc_srtp c = Some p -> In p srtp_known;
  xk_none : n <= 4 -> xc_certs c = [];
  xk_kx : n = 1 -> forall kx, xc_kx c = Some kx -> offered13 E cfg (g_transcript (xc_eng c)) kx \/ X kx;
  xk_keys : 2 <= n -> exists kx cs a b hs, g_suite (xc_eng c) = Some cs /\
    xc_chs c = Some a /\ xc_shs c = Some b /\ xc_hs c = Some hs /\
    (offered13 E cfg (g_transcript (xc_eng c)) kx \/ X kx) /\
    (n <= 4 -> server_hello13 E cfg (g_transcript (xc_eng c)) kx cs a b hs) /\
    (n = 5 -> server_certs13 E cfg (g_transcript (xc_eng c)) kx cs a b hs (xc_certs c)) /\
    (n = 6 -> server_proof13 E cfg (g_transcript (xc_eng c)) kx cs a b hs (xc_certs c)) /\
    (7 <= n -> exists exp, g_exp (xc_eng c) = Some exp /\
       server_done13 E cfg (g_transcript (xc_eng c)) kx cs a b hs (xc_certs c) exp) }.

Lemma xfacts_keep0 n a b : n <> 1 -> n <= 6 -> KX0 a b -> xfacts n a -> xfacts n b.
Proof.
  intros Hn1 Hn6 [(K1 & K2 & K3) K4 K5 K6 K7 K8 K9] [F1 F2 F3 F4 F5]. split.
  - congruence.
  - rewrite K4. exact F2.
  - rewrite K5. exact F3.
  - contradiction.
  - intros Hn. destruct (F5 Hn) as (kx & cs & x & y & hs & P1 & P2 & P3 & P4 & P5 & P6 & P7 & P8 & P9).
    exists kx, cs, x, y, hs. rewrite K2, K5, K6, K7, K8. repeat (split; [assumption|]).
    split; [destruct P5; [left; eapply offered13_grow; eassumption|right; assumption]|].
    split; [intros; eapply server_hello13_grow; eauto|].
    split; [intros; eapply server_certs13_grow; eauto|].
    split; [intros; eapply server_proof13_grow; eauto|]. lia.
Qed.
Lemma xfacts_keep n a b : KX a b -> (n = 1 -> xc_kx b = xc_kx a \/ xc_kx b = None) -> xfacts n a -> xfacts n b.
Proof.
  intros [[(K1 & K2 & K3) K4 K5 K6 K7 K8 K9] Kx] Hkx [F1 F2 F3 F4 F5]. split.
  - congruence.
  - rewrite K4. exact F2.
  - rewrite K5. exact F3.
  - intros H1 kx Hk. destruct (Hkx H1) as [Q|Q]; rewrite Q in Hk; [|discriminate].
    destruct (F4 H1 kx Hk); [left; eapply offered13_grow; eassumption|right; assumption].
  - intros Hn. destruct (F5 Hn) as (kx & cs & x & y & hs & P1 & P2 & P3 & P4 & P5 & P6 & P7 & P8 & P9).
    exists kx, cs, x, y, hs. rewrite K2, K5, K6, K7, K8. repeat (split; [assumption|]).
    split; [destruct P5; [left; eapply offered13_grow; eassumption|right; assumption]|].
    split; [intros; eapply server_hello13_grow; eauto|].
    split; [intros; eapply server_certs13_grow; eauto|].
    split; [intros; eapply server_proof13_grow; eauto|].
    intros H7. destruct (P9 H7) as (exp & Q1 & Q2). exists exp. split; [congruence|]. eapply server_done13_grow; eauto.
Qed.
(** Ranks at which the same facts are known. *)
Lemma xfacts_rank n m c : xfacts n c -> (n = 2 \/ n = 3 \/ n = 4) /\ (m = 3 \/ m = 4) \/ 7 <= n /\ 7 <= m -> xfacts m c.
Proof.
  intros [F1 F2 F3 F4 F5] H. split; auto; [intros; apply F3; lia|lia|].
  intros Hn. destruct (F5 ltac:(lia)) as (kx & cs & x & y & hs & P1 & P2 & P3 & P4 & P5 & P6 & P7 & P8 & P9).
  exists kx, cs, x, y, hs. repeat (split; [assumption|]). split; [intros; apply P6; lia|]. split; [lia|]. split; [lia|].
  intros. apply P9. lia.
Qed.
(** Before the hello. *)
Lemma xfacts_early n c : n <= 1 -> g_cfg (xc_eng c) = cfg -> (forall p, xc_srtp c = Some p -> In p srtp_known) ->
  xc_certs c = [] -> (n = 1 -> forall kx, xc_kx c = Some kx -> offered13 E cfg (g_transcript (xc_eng c)) kx \/ X kx) -> xfacts n c.
Proof. intros. split; auto. lia. Qed.

(** What a step before completion establishes. *)
Definition xpost (c : Client13) (r : res CState13) (c' : Client13) : Prop :=
  (xc_certs c' = xc_certs c \/ xc_certs c = []) /\
  match r with
  | Ok st => xfacts (xr st) c' /\ xr st <= 10 /\
      if xr st <? 10 then filter is_ck (xc_events c') = filter is_ck (xc_events c)
      else exists k, filter is_ck (xc_events c') = filter is_ck (xc_events c) ++ LE_Connected :: k /\
        (k = [] \/ exists km p cs exp, k = [LE_Keying km p] /\ xc_srtp c' = Some p /\
           g_suite (xc_eng c') = Some cs /\ g_exp (xc_eng c') = Some exp /\ keying_ok13 E cs exp p km)
  | _ => xfacts (xr (xc_state c)) c' /\ filter is_ck (xc_events c') = filter is_ck (xc_events c)
  end.

(** Engine operations in the middle of a step that started in [c]. *)
Lemma xw {A} (m : M Eng13 A) (Q : res A -> Client13 -> Prop) c c1 : pres GT m -> KX c c1 ->
  (forall r c2, KX c c2 -> GT (xc_eng c1) (xc_eng c2) -> c2 = set_xc_eng (xc_eng c2) c1 -> Q r c2) -> wp (xeng m) Q c1.
Proof.
  intros P K H. apply wp_zoom. specialize (P (xc_eng c1)). unfold wp. destruct (m (xc_eng c1)) as [r e']. cbn [fst snd] in *.
  apply H; [|exact P|reflexivity]. eapply KX_po; [exact K|]. apply KX_eng, GT_G, P.
Qed.

Lemma xz {A} (m : M Eng13 A) (Q : res A -> Client13 -> Prop) c : pres GT m ->
  (forall r e', GT (xc_eng c) e' -> Q r (set_xc_eng e' c)) -> wp (xeng m) Q c.
Proof.
  intros P H. apply wp_zoom. specialize (P (xc_eng c)). unfold wp. destruct (m (xc_eng c)) as [r e']. apply H, P.
Qed.

(** A failed or unfinished step that changed nothing. *)
Lemma xpost_fail c r c' : KX c c' -> (xr (xc_state c) = 1 -> xc_kx c' = xc_kx c \/ xc_kx c' = None) -> xfacts (xr (xc_state c)) c ->
  match r with Ok _ => False | _ => True end -> xpost c r c'.
Proof.
  intros K Hk F Hr. split; [left; apply K|]. destruct r; [destruct Hr|..]; (split; [eapply xfacts_keep; eassumption|apply K]).
Qed.
Lemma xpost_stay c st c' : KX c c' -> (xr (xc_state c) = 1 -> xc_kx c' = xc_kx c \/ xc_kx c' = None) -> xfacts (xr (xc_state c)) c ->
  st = xc_state c -> xr st < 10 -> xpost c (Ok st) c'.
Proof.
  intros K Hk F -> Hlt. split; [left; apply K|]. split; [eapply xfacts_keep; eassumption|]. split; [lia|].
  replace (xr (xc_state c) <? 10) with true by lia. apply K.
Qed.

Ltac refl := apply KX_po.
Ltac xf := apply xpost_fail; auto; try solve [refl | contradiction].

Lemma step_send_client_hello c : xc_state c = CT_SendClientHello -> xfacts 0 c -> wp (x_send_client_hello E) (xpost c) c.
Proof.
  intros Hst F. assert (F' : xfacts (xr (xc_state c)) c) by (rewrite Hst; exact F).
  assert (K0 : xr (xc_state c) <> 1) by (rewrite Hst; discriminate).
  unfold x_send_client_hello. apply wp_bind, wp_get.
  destruct (xc_random c) as [random|]; [|apply wp_panic; xf].
  apply wp_bind. apply (xw _ _ c c (gt_begin E)); [refl|]. intros [[]|e|m] c2 K _ _; [|xf..].
  apply wp_bind. apply of_opt_spec; [|xf]. intros group Hg.
  destruct (memN group (cfg_groups E (g_cfg (xc_eng c)))) eqn:Hm; cbn [negb]; [|apply wp_fail; xf].
  apply wp_bind. apply (xw _ _ c c2 gt_draw K). intros [t|e|m] c3 K3 _ _; [|xf..].
  apply wp_bind. apply of_opt_spec; [|xf]. intros kx Hkx.
  apply wp_bind, wp_modify.
  assert (K4 : KX c (set_xc_kx (Some (group, fst kx, snd kx)) c3)).
  { eapply KX_po; [exact K3|]. split; [split; auto; apply G0_po|reflexivity]. }
  set (c4 := set_xc_kx _ c3) in *. apply wp_bind. apply wp_zoom.
  eapply wp_mono; [apply (create_msg E MT_ClientHello)|].
  { intro e. unfold create_client_hello13, bind, get, ret. apply GT_po. }
  intros r e' [Hg' Hr].
  assert (K5 : KX c (set_xc_eng e' c4)) by (eapply KX_po; [exact K4|apply KX_eng, Hg']).
  destruct r as [[]|e|m]; [|xf..].
  apply wp_ret. destruct Hr as (body & Hb & Ht). unfold create_client_hello13, bind, get, ret in Hb. cbn [fst] in Hb. apply ok_inj in Hb. subst body.
  split; [left; apply K5|]. split; [|split; [cbn; lia|apply K5]].
  assert (F5 : xfacts 0 (set_xc_eng e' c4)) by (eapply xfacts_keep; [exact K5|discriminate|exact F]).
  apply xfacts_early; [cbn; lia|apply F5|apply F5|apply F5; lia|].
  intros _ kx' Hk. cbn [xc_kx set_xc_eng c4 set_xc_kx] in Hk. injection Hk as <-. left. cbn [xc_eng set_xc_eng].
  rewrite Ht.
  assert (Hcfg : g_cfg (xc_eng c4) = cfg).
  { assert (F4 : xfacts 0 c4) by (eapply xfacts_keep; [exact K4|discriminate|exact F]). apply F4. }
  set (ch := mkCH13 _ _ _ _ _ _ _). exists (g_transcript (xc_eng c4)), ch, t.
  split; [apply has13_last|]. unfold ch; clear ch. cbn [h_suites h_exts fst snd].
  rewrite Hcfg.
  split; [reflexivity|]. split; [apply in_or_app; left; unfold ch13_exts; apply in_or_app; left; do 2 right; left; reflexivity|].
  split; [apply in_or_app; left; unfold ch13_exts; apply in_or_app; left; do 3 right; left; reflexivity|].
  split; [|rewrite Hkx; destruct kx; reflexivity].
  rewrite (xk_cfg _ _ F) in Hm. unfold memN in Hm. apply existsb_exists in Hm. destruct Hm as (x & Hx & Hxe). apply N.eqb_eq in Hxe. subst x. exact Hx.
Qed.

(** Fields of the client only. *)
Definition XE (a b : Client13) : Prop := xc_eng b = xc_eng a /\ xc_srtp b = xc_srtp a /\ xc_certs b = xc_certs a /\
  xc_kx b = xc_kx a /\ xc_events b = xc_events a.
Lemma XE_po : preorder XE.
Proof.
  split; [intro; repeat split|]. intros a b c (H1 & H2 & H3 & H4 & H5) (K1 & K2 & K3 & K4 & K5). repeat split; congruence.
Qed.
Lemma hrr_ext_keep es : pres XE (hrr_extensions es).
Proof.
  induction es as [|[t d] es IH]; cbn [hrr_extensions]; presauto XE_po ltac:(first [exact IH|apply pres_modify; intro; repeat split]).
Qed.

Lemma memN_in x l : memN x l = true -> In x l.
Proof. unfold memN. rewrite existsb_exists. intros (y & H & K). apply N.eqb_eq in K. subst. exact H. Qed.
Lemma sh13_version_in es : sh13_version es = true -> exists d, In (X_VERSIONS, d) es /\ p_versions_sh d = Some V_DTLS13.
Proof.
  unfold sh13_version. rewrite existsb_exists. intros ([t d] & H & K). cbn [fst snd] in K. apply andb_prop in K. destruct K as [K1 K2].
  apply N.eqb_eq in K1. subst t. exists d. split; [exact H|]. destruct (p_versions_sh d); [|discriminate]. apply N.eqb_eq in K2. subst; reflexivity.
Qed.
Lemma sh13_share_in es g peer : sh13_share es = Some (g, peer) -> exists d, In (X_KEYSHARE, d) es /\ p_share_sh d = Some (g, peer).
Proof.
  unfold sh13_share. 
  assert (P : forall l o, fold_left (fun o x => if fst x =? X_KEYSHARE then match p_share_sh (snd x) with Some s => Some s | None => o end else o) l o = Some (g, peer) ->
    o = Some (g, peer) \/ exists d, In (X_KEYSHARE, d) l /\ p_share_sh d = Some (g, peer)).
  { induction l as [|[t d] l IH]; cbn [fold_left fst snd]; intros o H; [auto|]. apply IH in H. destruct H as [H|(d' & H1 & H2)].
    - destruct (t =? X_KEYSHARE) eqn:Ht; [|auto]. destruct (p_share_sh d) as [s|] eqn:Hp; [|auto].
      right. exists d. apply N.eqb_eq in Ht. subst t. split; [left; reflexivity|congruence].
    - right. exists d'. split; [right; exact H1|exact H2]. }
  intros H. apply P in H. destruct H as [H|H]; [discriminate|exact H].
Qed.

Lemma xpost_early c r c' : xr (xc_state c) = 1 -> xfacts 1 c -> g_cfg (xc_eng c') = g_cfg (xc_eng c) ->
  xc_srtp c' = xc_srtp c -> xc_certs c' = xc_certs c -> xc_events c' = xc_events c ->
  (xc_kx c' = None \/ xc_kx c' = xc_kx c /\ starts_with (g_transcript (xc_eng c')) (g_transcript (xc_eng c))) ->
  match r with Ok _ => False | _ => True end -> xpost c r c'.
Proof.
  intros Hr F H1 H2 H3 H4 H5 H6. split; [left; exact H3|].
  assert (K : xfacts 1 c').
  { apply xfacts_early; [lia|rewrite H1; apply F|rewrite H2; apply F|rewrite H3; apply F; lia|].
    intros _ kx Hk. destruct H5 as [H5|[H5 H7]]; rewrite H5 in Hk; [discriminate|].
    destruct (xk_kx _ _ F eq_refl _ Hk) as [Q|Q]; [left; eapply offered13_grow; eassumption|right; exact Q]. }
  destruct r; [destruct H6|..]; rewrite Hr; (split; [exact K|rewrite H4; reflexivity]).
Qed.

Lemma step_hello_retry c c1 h msg : xc_state c = CT_AwaitServerHello -> xfacts 1 c -> 
  XE (set_xc_eng (xc_eng c1) c) c1 -> g_cfg (xc_eng c1) = g_cfg (xc_eng c) ->
  g_transcript (xc_eng c1) = g_transcript (xc_eng c) ++ msg ->
  wp (x_hello_retry E h (length (g_transcript (xc_eng c)))) (xpost c) c1.
Proof.
  intros Hst F (Z1 & Z2 & Z3 & Z4 & Z5) Hcfg Ht. cbn [xc_eng xc_srtp xc_certs xc_kx xc_events set_xc_eng] in *.
  assert (Hr : xr (xc_state c) = 1) by (rewrite Hst; reflexivity).
  unfold x_hello_retry. apply wp_bind, wp_get. destruct (xc_retry c1).
  - apply wp_bind, wp_zoom, wp_modify, wp_fail. apply xpost_early; auto.
    right. cbn -[firstn]. split; [exact Z4|]. rewrite Ht, firstn_app, Nat.sub_diag, firstn_all, app_nil_r. apply starts_with_refl.
  - apply wp_bind. pose proof (hrr_ext_keep (exts_of (sh_exts h)) c1) as P. unfold wp at 1.
    destruct (hrr_extensions (exts_of (sh_exts h)) c1) as [r c2]. cbn [fst snd] in *. destruct P as (P1 & P2 & P3 & P4 & P5).
    assert (S : starts_with (g_transcript (xc_eng c2)) (g_transcript (xc_eng c))) by (rewrite P1, Ht; apply starts_with_app).
    assert (U : forall r c', g_cfg (xc_eng c') = g_cfg (xc_eng c2) -> g_transcript (xc_eng c') = g_transcript (xc_eng c2) -> 
      XE (set_xc_eng (xc_eng c') c2) c' -> match r with Ok _ => False | _ => True end -> xpost c r c').
    { intros r' c' U1 U2 (Q1 & Q2 & Q3 & Q4 & Q5) U3. cbn [xc_eng xc_srtp xc_certs xc_kx xc_events set_xc_eng] in *.
      apply xpost_early; auto; try congruence. right. split; [congruence|]. rewrite U2. exact S. }
    destruct r as [[]|e|m]; [|apply U; auto; repeat split..].
    destruct (negb _); [apply wp_fail, U; auto; repeat split|].
    apply wp_bind, wp_zoom, wp_modify. destruct (negb _); [apply wp_fail, U; auto; repeat split|].
    apply wp_bind, wp_zoom. unfold replace_transcript. apply wp_bind, hash_alg_spec; [|discriminate].
    intros cs Hcs. apply wp_bind, wp_get. destruct (Nat.ltb _ _); [apply wp_panic, U; auto; repeat split|].
    apply wp_modify. apply wp_bind, wp_zoom. unfold advance_peer. apply wp_modify.
    apply wp_bind, wp_zoom. unfold reset_for_hello_retry. apply wp_modify.
    apply wp_bind, wp_modify, wp_bind, wp_modify, wp_ret.
    match goal with |- xpost _ _ ?x => set (c' := x) end.
    assert (V : g_cfg (xc_eng c') = g_cfg (xc_eng c) /\ xc_srtp c' = xc_srtp c /\ xc_certs c' = xc_certs c /\ xc_events c' = xc_events c).
    { unfold c'. cbn. repeat split; congruence. }
    destruct V as (V1 & V2 & V3 & V4). clearbody c'. split; [left; exact V3|]. split; [|split; [cbn; lia|cbn; rewrite V4; reflexivity]].
    apply xfacts_early; [cbn; lia|rewrite V1; apply F|rewrite V2; apply F|rewrite V3; apply F; lia|discriminate].
Qed.

Lemma step_install c c2 c1 k shs' : 
  (forall r e', GT (xc_eng c2) e' -> match r with Ok _ => False | _ => True end -> xpost c r (set_xc_eng e' c2)) ->
  (forall e', GT (xc_eng c2) e' -> xpost c (Ok CT_AwaitEncryptedExtensions) (set_xc_eng e' c2)) ->
  c1 = c2 ->
  wp (xeng (install_handshake_keys E k shs') ;;; xeng (enable_peer_encryption13 E) ;;; xeng advance_peer ;;; ret CT_AwaitEncryptedExtensions)
    (xpost c) c1.
Proof.
  intros U3 U4 ->.
  apply wp_bind, xz; [apply gt_install_hs|]. intros [[]|e|m] e3 G3; [|apply U3; auto..].
  apply wp_bind, xz; [apply gt_enable|]. intros r e4 G4. cbn [xc_eng set_xc_eng] in G4.
  assert (G4' : GT (xc_eng c2) e4) by (eapply GT_po; eassumption).
  replace (set_xc_eng e4 (set_xc_eng e3 c2)) with (set_xc_eng e4 c2) by (destruct c2; reflexivity).
  destruct r as [[]|e|m]; [|apply U3; auto..].
  apply wp_bind, wp_zoom. unfold advance_peer. apply wp_modify, wp_ret.
  replace (set_xc_eng _ (set_xc_eng e4 c2)) with (set_xc_eng (set_g_peer_hs (u16 (g_peer_hs e4 + 1)) e4) c2) by (destruct c2; reflexivity).
  apply U4. eapply GT_po; [exact G4'|]. repeat split.
Qed.
Lemma step_server_hello c c1 h raw before : xc_state c = CT_AwaitServerHello -> xfacts 1 c ->
  XE (set_xc_eng (xc_eng c1) c) c1 -> g_cfg (xc_eng c1) = g_cfg (xc_eng c) -> is_hrr h = false ->
  before = g_transcript (xc_eng c) -> p_sh13 raw = Some (h, []) ->
  g_transcript (xc_eng c1) = before ++ tmsg13 MT_ServerHello raw ->
  wp (x_server_hello E h) (xpost c) c1.
Proof.
  intros Hst F (Z1 & Z2 & Z3 & Z4 & Z5) Hcfg Hhrr Hb Hp Ht. cbn [xc_eng xc_srtp xc_certs xc_kx xc_events set_xc_eng] in *.
  assert (Hr : xr (xc_state c) = 1) by (rewrite Hst; reflexivity).
  assert (U : forall r c', g_cfg (xc_eng c') = g_cfg (xc_eng c1) -> g_transcript (xc_eng c') = g_transcript (xc_eng c1) ->
      xc_srtp c' = xc_srtp c1 -> xc_certs c' = xc_certs c1 -> xc_events c' = xc_events c1 ->
      (xc_kx c' = None \/ xc_kx c' = xc_kx c1) -> match r with Ok _ => False | _ => True end -> xpost c r c').
  { intros r' c' U1 U2 U3 U4 U5 U6 U7. apply xpost_early; auto; try congruence. destruct U6 as [U6|U6]; [left; exact U6|right].
    split; [congruence|]. rewrite U2, Ht, Hb. apply starts_with_app. }
  unfold x_server_hello. apply wp_bind, wp_get.
  destruct (sh_version h =? V_DTLS12) eqn:H1; cbn [negb]; [|apply wp_fail, U; auto].
  destruct (sh_comp h =? 0) eqn:H2; cbn [negb]; [|apply wp_fail, U; auto].
  destruct (memN (sh_suite h) suites13_supported) eqn:H3; cbn [negb]; [|apply wp_fail, U; auto].
  destruct (suite13_allowed E (xc_eng c1) (sh_suite h)) eqn:H4; cbn [negb]; [|apply wp_fail, U; auto].
  apply wp_bind, wp_zoom, wp_modify, wp_bind, wp_modify.
  destruct (sh_exts h) as [es|] eqn:H5; [|apply wp_fail, U; auto].
  destruct (sh13_version es) eqn:H6; cbn [negb]; [|apply wp_fail, U; auto].
  destruct (sh13_share es) as [[sg peer]|] eqn:H7; [|apply wp_fail, U; auto].
  destruct (xc_kx c1) as [[[group secret] pub]|] eqn:H8; [|apply wp_fail, U; auto].
  apply wp_bind, wp_modify. destruct (group =? sg) eqn:H9; cbn [negb]; [|apply wp_fail, U; auto].
  apply N.eqb_eq in H9. subst sg.
  apply wp_bind, of_opt_spec; [|apply U; auto]. intros shared Hsh.
  apply wp_bind, wp_zoom. eapply wp_mono; [apply derive_hs_spec|]. intros [q|e|m] e' [-> Hq]; [|apply U; auto..].
  destruct Hq as (cs & Q1 & Q2). cbn [xc_eng set_xc_kx set_xc_sid set_xc_eng g_suite set_g_suite] in Q1, Q2. injection Q1 as <-.
  change (g_transcript (set_g_suite (Some (sh_suite h)) (xc_eng c1))) with (g_transcript (xc_eng c1)) in Q2. rewrite Ht in Q2.
  apply wp_bind, wp_modify, wp_bind, wp_modify, wp_bind, wp_modify.
  match goal with |- wp _ _ ?x => assert (D : exists c2, x = c2 /\ g_cfg (xc_eng c2) = g_cfg (xc_eng c1) /\ g_suite (xc_eng c2) = Some (sh_suite h) /\ g_transcript (xc_eng c2) = g_transcript (xc_eng c1) /\
    xc_srtp c2 = xc_srtp c1 /\ xc_certs c2 = xc_certs c1 /\ xc_events c2 = xc_events c1 /\ xc_kx c2 = None /\
    xc_chs c2 = Some (fst (fst q)) /\ xc_shs c2 = Some (snd (fst q)) /\ xc_hs c2 = Some (snd q)) by (exists x; split; [reflexivity|cbn; repeat split]) end.
  destruct D as (c2 & -> & D1 & D2 & D3 & D4 & D5 & D6 & D7 & D8 & D9 & D10).
  apply (step_install c c2 c2); [..|reflexivity].
  { intros r' e' (W1 & W2 & W3 & W4) W9. apply U; cbn [xc_eng xc_srtp xc_certs xc_kx xc_events set_xc_eng]; [rewrite W1; exact D1|rewrite W3; exact D3|exact D4|exact D5|exact D6|left; exact D7|exact W9]. }
  intros e5 (V1 & V2 & V3 & V4).
  split; [left; cbn [xc_certs set_xc_eng]; rewrite D5; exact Z3|]. split; [|split; [cbn; lia|cbn; rewrite D6, Z5; reflexivity]]. cbn [xr].
  pose proof (xk_none _ _ F ltac:(lia)) as Hnil.
  split; cbn [xc_eng xc_srtp xc_certs xc_kx xc_events xc_hs xc_chs xc_shs set_xc_eng].
  - rewrite V1, D1, Hcfg. apply F.
  - rewrite D4, Z2. apply F.
  - intros _. rewrite D5, Z3. exact Hnil.
  - discriminate.
  - intros _. exists (group, secret, pub), (sh_suite h), (fst (fst q)), (snd (fst q)), (snd q).
    split; [rewrite V2; exact D2|]. repeat (split; [assumption|]).
    split.
    { destruct (xk_kx _ _ F eq_refl (group, secret, pub)) as [Q|Q]; [symmetry; exact Z4| |right; exact Q].
      left. eapply offered13_grow; [|exact Q]. rewrite V3, D3, Ht, Hb. apply starts_with_app. }
    split; [intros _|lia].
    exists before, raw, h, es, peer, shared. cbn [fst snd]. rewrite V3, D3, Ht.
    split; [apply has13_last|]. split; [exact Hp|]. split; [exact Hhrr|]. split; [lia|]. split; [lia|]. split; [reflexivity|].
    split; [apply memN_in, H3|]. split; [apply memN_in; unfold suite13_allowed in H4; rewrite Hcfg, (xk_cfg _ _ F) in H4; exact H4|].
    split; [exact H5|]. split; [apply sh13_version_in, H6|]. split; [apply sh13_share_in, H7|]. split; [exact Hsh|exact Q2].
Qed.

Lemma step_await_server_hello c : xc_state c = CT_AwaitServerHello -> xfacts 1 c -> wp (x_await_server_hello E) (xpost c) c.
Proof.
  intros Hst F. unfold x_await_server_hello. apply wp_bind, wp_get, wp_bind, wp_zoom.
  assert (F' : xfacts (xr (xc_state c)) c) by (rewrite Hst; exact F).
  eapply wp_mono; [apply next_msg|].
  assert (U : forall e', GT (xc_eng c) e' -> KX c (set_xc_eng e' c)) by (intros; apply KX_eng, GT_G; assumption).
  intros [[m|]|e|n] e'; cbv beta iota; [|intros H; apply wp_ret, xpost_stay; auto; cbn; lia|intros H; apply xpost_fail; auto..].
  intros (H1 & H2 & H3 & H4 & rest & H5 & H6). apply body13_inv in H5. destruct (n_body m) as [h|h|es|ctx es|raw|sc sig|vd|b|t];
    try (apply wp_panic; split; [left; reflexivity|split; [|reflexivity]]; eapply xfacts_keep; [| |exact F'];
         [apply KX_eng; repeat split; auto; rewrite H4; apply starts_with_app|auto]).
  destruct H5 as [T P]. rewrite T in *. destruct H6 as [-> |H6]; [|discriminate].
  destruct (is_hrr h) eqn:Hh.
  - eapply step_hello_retry; eauto. repeat split.
  - eapply step_server_hello; eauto. repeat split.
Qed.

(** Receiving a message in a state that is not the first two. *)
Lemma xnext c c1 w (k : option Msg13 -> XM CState13) st : xc_state c = st -> 2 <= xr st < 10 -> xfacts (xr st) c ->
  KX c c1 -> GT (xc_eng c) (xc_eng c1) -> 
  (forall c', KX c c' -> wp (k None) (xpost c) c') ->
  (forall m c' rest, KX c c' -> KX c1 c' -> c' = set_xc_eng (xc_eng c') c1 ->
     g_transcript (xc_eng c') = g_transcript (xc_eng c) ++ tmsg13 (n_type m) (n_raw m) ->
     p_body13 false (n_type m) (g_suite (xc_eng c)) (n_raw m) = Some (n_body m, rest) ->
     (rest = [] \/ mt13_known (n_type m) = false) -> wp (k (Some m)) (xpost c) c') ->
  wp (let! o := xeng (next_handshake13 w) in k o) (xpost c) c1.
Proof.
  intros Hst Hn F K1 G1 HN HS. assert (F' : xfacts (xr (xc_state c)) c) by (rewrite Hst; exact F).
  apply wp_bind, wp_zoom. eapply wp_mono; [apply next_msg|].
  assert (U : forall e', GT (xc_eng c1) e' -> KX c (set_xc_eng e' c1)).
  { intros e' H. eapply KX_po; [exact K1|]. apply KX_eng, GT_G; assumption. }
  intros [[m|]|e|n] e'; cbv beta iota; [|intros H; apply HN, U, H|intros H; apply xpost_fail; auto; rewrite Hst; lia..].
  intros (H1 & H2 & H3 & H4 & rest & H5 & H6). destruct G1 as (G1 & G2 & G3 & G4).
  assert (V : KX c1 (set_xc_eng e' c1)). { apply KX_eng. split; [split; [|split]|]; auto. rewrite H4. apply starts_with_app. }
  apply (HS m _ rest); auto; cbn [xc_eng set_xc_eng]; try congruence.
  eapply KX_po; [exact K1|exact V].
Qed.
Lemma xfacts_next n a b : KX a b -> n <> 1 -> xfacts n a -> xfacts n b.
Proof. intros K H. apply xfacts_keep; [exact K|contradiction]. Qed.

Lemma ee_keep n es : forall c, n <> 1 -> xfacts n c -> wp (ee13_extensions es) (fun _ c' => xfacts n c' /\
  xc_eng c' = xc_eng c /\ xc_certs c' = xc_certs c /\ xc_events c' = xc_events c) c.
Proof.
  induction es as [|[t d] es IH]; intros c Hn F; cbn [ee13_extensions]; [apply wp_ret; auto|].
  apply wp_bind. destruct (t =? X_SRTP); [|apply wp_ret, IH; auto].
  destruct (p_srtp d) as [[ps mki]|] eqn:Hp; [|apply wp_fail; auto].
  destruct ps as [|p ps]; [apply wp_ret, IH; auto|]. apply wp_modify.
  apply srtp_known_only in Hp. inversion Hp as [|? ? Hpk]; subst.
  apply (IH (set_xc_srtp (Some p) c) Hn). destruct F as [F1 F2 F3 F4 F5]. split; auto. cbn. intros q [= <-]. exact Hpk.
Qed.

Lemma step_await_ee c : xc_state c = CT_AwaitEncryptedExtensions -> xfacts 2 c -> wp x_await_encrypted_extensions (xpost c) c.
Proof.
  intros Hst F. assert (F' : xfacts (xr (xc_state c)) c) by (rewrite Hst; exact F).
  assert (N1 : xr (xc_state c) = 1 -> False) by (rewrite Hst; discriminate).
  unfold x_await_encrypted_extensions. apply (xnext c c _ _ CT_AwaitEncryptedExtensions); auto; [cbn; lia|refl|apply GT_po|..].
  { intros c' K. apply wp_ret, xpost_stay; auto; [intro; contradiction|cbn; lia]. }
  intros m c' rest K _ _ Ht Hp Hr. destruct (n_body m) as [h|h|es|ctx es|raw|sc sig|vd|b|t]; try (apply wp_panic; xf).
  apply wp_bind. eapply wp_mono; [apply (ee_keep 2 es); [discriminate|apply (xfacts_next 2 c c'); [exact K|discriminate|exact F]]|].
  intros r c2 (F2 & E2 & C2 & V2).
  assert (Q1 : xc_certs c2 = xc_certs c) by (rewrite C2; apply K).
  assert (Q2 : filter is_ck (xc_events c2) = filter is_ck (xc_events c)) by (rewrite V2; apply K).
  destruct r as [[]|e|n]; cbv beta iota; [|split; [left; exact Q1|rewrite Hst; split; assumption]..].
  apply wp_bind, wp_zoom. unfold advance_peer. apply wp_modify, wp_ret. split; [left; exact Q1|]. split; [|split; [cbn; lia|exact Q2]].
  apply (xfacts_rank 2); [|cbn; lia]. apply (xfacts_next 2 c2); [|discriminate|exact F2]. apply KX_eng. repeat split. apply starts_with_refl.
Qed.

Lemma xpost_next c st c' n : KX c c' -> xfacts n c -> n <> 1 -> xr st < 10 ->
  (n = xr st \/ (n = 2 \/ n = 3 \/ n = 4) /\ (xr st = 3 \/ xr st = 4) \/ 7 <= n /\ 7 <= xr st) -> xpost c (Ok st) c'.
Proof.
  intros K F Hn Hlt H. split; [left; apply K|]. split; [|split; [lia|replace (xr st <? 10) with true by lia; apply K]].
  assert (F2 : xfacts n c') by (eapply xfacts_next; eassumption).
  destruct H as [<- |H]; [exact F2|]. eapply xfacts_rank; eassumption.
Qed.
Lemma KX_advance c e : KX c (set_xc_eng e c) -> KX c (set_xc_eng (set_g_peer_hs (u16 (g_peer_hs e + 1)) e) c).
Proof. intros K. eapply KX_po; [exact K|]. split; [split; auto; repeat split; apply starts_with_refl|reflexivity]. Qed.

Lemma step_await_cr c : xc_state c = CT_AwaitCertificateRequest -> xfacts 3 c -> wp x_await_certificate_request (xpost c) c.
Proof.
  intros Hst F. assert (F' : xfacts (xr (xc_state c)) c) by (rewrite Hst; exact F).
  assert (N1 : xr (xc_state c) = 1 -> False) by (rewrite Hst; discriminate).
  unfold x_await_certificate_request. apply wp_bind, wp_get. destruct (has_complete13 _ _).
  { apply wp_ret, (xpost_next c _ c 3); auto; [refl|discriminate|cbn; lia|cbn; lia]. }
  apply (xnext c c _ _ CT_AwaitCertificateRequest); auto; [cbn; lia|refl|apply GT_po|..].
  { intros c' K. apply wp_ret, xpost_stay; auto; [intro; contradiction|cbn; lia]. }
  intros m c' rest K _ _ Ht Hp Hr. destruct (n_body m) as [h|h|es|ctx es|raw|sc sig|vd|b|t]; try (apply wp_panic; xf).
  destruct (parse_certificate_request raw) as [ctx|]; [|apply wp_fail; xf].
  assert (W : forall c2, KX c c2 -> wp (modify (set_xc_auth true) ;;; (xeng advance_peer ;;; ret CT_AwaitCertificate)) (xpost c) c2).
  { intros c2 K2. apply wp_bind, wp_modify, wp_bind, wp_zoom. unfold advance_peer. apply wp_modify, wp_ret.
    apply (xpost_next c _ _ 3); auto; [|discriminate|cbn; lia|cbn; lia].
    eapply KX_po; [exact K2|]. split; [split; auto; repeat split; apply starts_with_refl|reflexivity]. }
  apply wp_bind. destruct ctx as [x|]; [apply wp_modify|apply wp_ret]; apply W; [|exact K].
  eapply KX_po; [exact K|]. split; [split; auto; repeat split; apply starts_with_refl|reflexivity].
Qed.

Lemma step_await_cert c : xc_state c = CT_AwaitCertificate -> xfacts 4 c -> wp x_await_certificate (xpost c) c.
Proof.
  intros Hst F. assert (F' : xfacts (xr (xc_state c)) c) by (rewrite Hst; exact F).
  assert (N1 : xr (xc_state c) = 1 -> False) by (rewrite Hst; discriminate).
  unfold x_await_certificate. apply (xnext c c _ _ CT_AwaitCertificate); auto; [cbn; lia|refl|apply GT_po|..].
  { intros c' K. apply wp_ret, xpost_stay; auto; [intro; contradiction|cbn; lia]. }
  intros m c' rest K _ _ Ht Hp Hr. pose proof (body13_inv _ _ _ _ _ _ Hp) as Hb.
  destruct (n_body m) as [h|h|es|ctx es|raw|sc sig|vd|b|t]; try (apply wp_panic; xf).
  destruct Hb as [Ty Hc]. rewrite Ty in *. destruct Hr as [-> |Hr]; [|discriminate].
  destruct ctx as [|]; cbn [is_nil negb]; [|apply wp_fail; xf].
  destruct es as [|en es]; cbn [is_nil negb]; [apply wp_fail; xf|]. set (ee := en :: es) in *.
  apply wp_bind, wp_modify, wp_bind, wp_modify, wp_bind, wp_zoom. unfold advance_peer. apply wp_modify, wp_ret.
  pose proof (xk_none _ _ F ltac:(lia)) as Hnil.
  pose proof (kx_certs _ _ (proj1 K)) as Kc. pose proof (kx_ev _ _ (proj1 K)) as Kev. pose proof (kx_eng _ _ (proj1 K)) as (Kg1 & Kg2 & Kg3).
  split; [right; exact Hnil|]. cbn [xr].
  split; [|split; [lia|cbn [xc_events set_xc_events set_xc_eng]; change (5 <? 10) with true; cbv iota; rewrite filter_app; cbn; rewrite app_nil_r; exact Kev]].
  split; cbn [xc_eng xc_srtp xc_certs xc_kx xc_events xc_hs xc_chs xc_shs set_xc_eng set_xc_events set_xc_certs g_suite g_transcript g_exp set_g_peer_hs g_cfg].
  - rewrite Kg1. apply F.
  - rewrite (kx_srtp _ _ (proj1 K)). apply F.
  - lia.
  - lia.
  - intros _. destruct (xk_keys _ _ F ltac:(lia)) as (kx & cs & x & y & hs & P1 & P2 & P3 & P4 & P5 & P6 & P7 & P8 & P9).
    exists kx, cs, x, y, hs. destruct (proj1 K) as [_ Z2 Z3 Z4 Z5 Z6 Z7]. rewrite Z4, Z5, Z6, Kg2. repeat (split; [assumption|]).
    split; [destruct P5 as [P5|P5]; [left; eapply offered13_grow; eassumption|right; exact P5]|].
    split; [lia|]. split; [intros _|split; lia].
    exists (g_transcript (xc_eng c)), (n_raw m), ee. rewrite Ht. split; [apply has13_last|]. split; [exact Hc|].
    rewrite Kc, Hnil. split; [reflexivity|]. split; [discriminate|]. apply P6. lia.
Qed.

Lemma step_await_cv c : xc_state c = CT_AwaitCertificateVerify -> xfacts 5 c -> wp (x_await_certificate_verify E) (xpost c) c.
Proof.
  intros Hst F. assert (F' : xfacts (xr (xc_state c)) c) by (rewrite Hst; exact F).
  assert (N1 : xr (xc_state c) = 1 -> False) by (rewrite Hst; discriminate).
  unfold x_await_certificate_verify. apply wp_bind, wp_zoom. eapply wp_mono; [apply transcript_hash_spec|].
  intros r e' [-> Hth]. replace (set_xc_eng (xc_eng c) c) with c by (destruct c; reflexivity).
  destruct r as [th|e|n]; [|xf..]. destruct Hth as (cs & Hcs & ->).
  apply (xnext c c _ _ CT_AwaitCertificateVerify); auto; [cbn; lia|refl|apply GT_po|..].
  { intros c' K. apply wp_ret, xpost_stay; auto; [intro; contradiction|cbn; lia]. }
  intros m c' rest K _ _ Ht Hp Hr. pose proof (body13_inv _ _ _ _ _ _ Hp) as Hb.
  destruct (n_body m) as [h|h|es|ctx es|raw|sc sig|vd|b|t]; try (apply wp_panic; xf).
  destruct Hb as [Ty Hc]. rewrite Ty in *. destruct Hr as [-> |Hr]; [|discriminate].
  apply wp_bind, wp_get, wp_bind, wp_zoom. eapply wp_mono; [apply check_cv_spec|]. intros r e' [-> Hv].
  replace (set_xc_eng (xc_eng c') c') with c' by (destruct c'; reflexivity).
  destruct r as [[]|e|n]; [|xf..].
  apply wp_bind, wp_zoom. unfold advance_peer. apply wp_modify, wp_ret.
  destruct Hv as (leaf & V1 & V2 & V3 & V4).
  destruct (proj1 K) as [(Kg1 & Kg2 & Kg3) Z2 Z3 Z4 Z5 Z6 Z7].
  split; [left; exact Z3|]. cbn [xr]. split; [|split; [lia|exact Z7]].
  split; cbn [xc_eng xc_srtp xc_certs xc_kx xc_events xc_hs xc_chs xc_shs set_xc_eng g_suite g_transcript g_exp set_g_peer_hs g_cfg].
  - rewrite Kg1. apply F.
  - rewrite Z2. apply F.
  - lia.
  - lia.
  - intros _. destruct (xk_keys _ _ F ltac:(lia)) as (kx & cs' & x & y & hs & P1 & P2 & P3 & P4 & P5 & P6 & P7 & P8 & P9).
    assert (cs' = cs) by congruence. subst cs'.
    exists kx, cs, x, y, hs. rewrite Z4, Z5, Z6, Kg2. repeat (split; [assumption|]).
    split; [destruct P5 as [P5|P5]; [left; eapply offered13_grow; eassumption|right; exact P5]|].
    split; [lia|]. split; [lia|]. split; [intros _|lia].
    exists (g_transcript (xc_eng c)), (n_raw m), sc, sig, leaf. rewrite Ht, Z3. split; [apply has13_last|]. split; [exact Hc|].
    split; [rewrite <- Z3; exact V1|]. split; [split; [exact V2|split; [exact V3|exact V4]]|]. apply P7. reflexivity.
Qed.

Lemma step_await_finished c : xc_state c = CT_AwaitFinished -> xfacts 6 c -> wp (x_await_finished E) (xpost c) c.
Proof.
  intros Hst F. assert (F' : xfacts (xr (xc_state c)) c) by (rewrite Hst; exact F).
  assert (N1 : xr (xc_state c) = 1 -> False) by (rewrite Hst; discriminate).
  unfold x_await_finished. apply wp_bind, wp_get, wp_bind, of_opt_spec; [|xf]. intros shs Hshs.
  apply wp_bind, wp_zoom. eapply wp_mono; [apply verify_data_spec|].
  intros r e' [-> Hvd]. replace (set_xc_eng (xc_eng c) c) with c by (destruct c; reflexivity).
  destruct r as [expected|e|n]; [|xf..]. destruct Hvd as (cs & Hcs & Hvd).
  apply (xnext c c _ _ CT_AwaitFinished); auto; [cbn; lia|refl|apply GT_po|..].
  { intros c' K. apply wp_ret, xpost_stay; auto; [intro; contradiction|cbn; lia]. }
  intros m c' rest K _ _ Ht Hp Hr. pose proof (body13_inv _ _ _ _ _ _ Hp) as Hb.
  destruct (n_body m) as [h|h|es|ctx es|raw|sc sig|vd|b|t]; try (apply wp_panic; xf).
  destruct Hb as [Ty Hc]. rewrite Ty in *. destruct Hr as [-> |Hr]; [|discriminate]. rewrite app_nil_r in Hc. subst vd.
  destruct (beqb (n_raw m) expected) eqn:Hv; cbn [negb]; [|apply wp_fail; xf].
  apply beqb_eq in Hv. rewrite Hv in *.
  apply wp_bind, wp_zoom. unfold advance_peer. apply wp_modify.
  match goal with |- wp _ _ ?x => assert (D : exists c2, x = c2 /\ KX c c2 /\ g_transcript (xc_eng c2) = g_transcript (xc_eng c) ++ tmsg13 MT_Finished expected) end.
  { eexists. split; [reflexivity|]. split; [|exact Ht].
    eapply KX_po; [exact K|]. split; [split; auto; repeat split; apply starts_with_refl|reflexivity]. }
  destruct D as (c2 & -> & K2 & T2).
  assert (S2 : g_suite (xc_eng c2) = g_suite (xc_eng c)) by (apply (kx_eng _ _ (proj1 K2))).
  clear K Ht c'.
  apply wp_bind, of_opt_spec; [|xf]. intros hs Hhs.
  apply wp_bind, wp_zoom. eapply wp_mono; [apply derive_app_spec|]. intros r e' (G1 & G2 & G3).
  assert (K3 : KX0 c (set_xc_eng e' c2)). { eapply KX0_po; [apply K2|]. split; auto. }
  assert (U : forall r c3, KX0 c c3 -> match r with Ok _ => False | _ => True end -> xpost c r c3).
  { intros r' c3 K4 Hr'. split; [left; apply K4|]. destruct r'; [destruct Hr'|..]; (split; [rewrite Hst; eapply xfacts_keep0; [discriminate|cbn; lia|exact K4|exact F]|apply K4]). }
  destruct r as [q|e|n]; [|apply U; auto..].
  destruct G3 as (cs' & exp & Q1 & Q2 & Q3). assert (cs' = cs) by congruence. subst cs'.
  apply wp_bind, xz; [apply gt_install_app|]. intros r e2 G4. cbn [xc_eng set_xc_eng] in G4.
  assert (K5 : KX0 c (set_xc_eng e2 (set_xc_eng e' c2))). { eapply KX0_po; [exact K3|]. split; auto. apply GT_G in G4. apply G4. }
  destruct r as [[]|e|n]; [|apply U; auto..]. apply wp_ret.
  assert (F7 : xfacts 7 (set_xc_eng e2 (set_xc_eng e' c2))).
  { destruct G4 as (W1 & W2 & W3 & W4). destruct K5 as [(Kg1 & Kg2 & Kg3) Z2 Z3 Z4 Z5 Z6 Z7].
    split; cbn [xc_eng xc_srtp xc_certs xc_kx xc_events xc_hs xc_chs xc_shs set_xc_eng] in *.
    - rewrite Kg1. apply F.
    - rewrite Z2. apply F.
    - lia.
    - lia.
    - intros _. destruct (xk_keys _ _ F ltac:(lia)) as (kx & cs' & x & y & hs' & P1 & P2 & P3 & P4 & P5 & P6 & P7 & P8 & P9).
      assert (cs' = cs) by congruence. subst cs'. assert (hs' = hs) by congruence. subst hs'. assert (y = shs) by congruence. subst y.
      exists kx, cs, x, shs, hs. rewrite Z4, Z5, Z6, Kg2. repeat (split; [assumption|]).
      split; [destruct P5 as [P5|P5]; [left; eapply offered13_grow; eassumption|right; exact P5]|].
      split; [lia|]. split; [lia|]. split; [lia|]. intros _. exists exp. split; [congruence|].
      rewrite W3, G2, T2, Z3. exists (g_transcript (xc_eng c)), expected. split; [apply has13_last|]. split; [exact Hvd|].
      split; [rewrite <- T2; exact Q3|]. apply P8. reflexivity. }
  split; [left; apply K5|]. split; [destruct (xc_auth c); [exact F7|apply (xfacts_rank 7); [exact F7|cbn; lia]]|].
  split; [destruct (xc_auth c); cbn; lia|]. destruct (xc_auth c); apply K5.
Qed.

(** Sending a message of the client's own flight. *)
Lemma xsend c c1 mt mk (k : XM CState13) : 7 <= xr (xc_state c) < 10 -> xfacts (xr (xc_state c)) c -> KX c c1 -> (forall e, GT e (snd (mk e))) ->
  (forall c', KX c c' -> wp k (xpost c) c') -> wp (xeng (create_handshake13 E mt mk) ;;; k) (xpost c) c1.
Proof.
  intros Hn F K Hmk Hk. apply wp_bind, wp_zoom. eapply wp_mono; [apply create_msg, Hmk|]. intros r e' [G1 _].
  assert (K2 : KX c (set_xc_eng e' c1)) by (eapply KX_po; [exact K|apply KX_eng, G1]).
  destruct r as [[]|e|n]; [apply Hk, K2|apply xpost_fail; auto; lia..].
Qed.
Lemma step_send_cert c : xc_state c = CT_SendCertificate -> xfacts 7 c -> wp (x_send_certificate E) (xpost c) c.
Proof.
  intros Hst F. assert (F' : xfacts (xr (xc_state c)) c) by (rewrite Hst; exact F).
  assert (N1 : xr (xc_state c) = 1 -> False) by (rewrite Hst; discriminate).
  unfold x_send_certificate. apply wp_bind, wp_get, wp_bind. apply (xw _ _ c c (gt_begin E)); [refl|].
  intros [[]|e|n] c2 K2 _ _; [|xf..].
  destruct (negb _).
  - apply (xsend c); auto; [rewrite Hst; cbn; lia|intro; apply GT_po|]. intros c' K.
    apply wp_ret, (xpost_next c _ c' 7); auto; [discriminate|cbn; lia|cbn; lia].
  - apply (xsend c); auto; [rewrite Hst; cbn; lia|intro; apply GT_po|]. intros c' K.
    apply wp_ret, (xpost_next c _ c' 7); auto; [discriminate|cbn; lia|cbn; lia].
Qed.
Lemma gt_create_cv context : pres GT (create_certificate_verify13 E context).
Proof. apply (fr_create_cv13 E _ GT_po). intros. repeat split. Qed.
Lemma step_send_cv c : xc_state c = CT_SendCertificateVerify -> xfacts 8 c -> wp (x_send_certificate_verify E) (xpost c) c.
Proof.
  intros Hst F. assert (F' : xfacts (xr (xc_state c)) c) by (rewrite Hst; exact F).
  unfold x_send_certificate_verify. apply (xsend c); auto; [rewrite Hst; cbn; lia|refl|intro; apply gt_create_cv|]. intros c' K.
  apply wp_ret, (xpost_next c _ c' 8); auto; [discriminate|cbn; lia|cbn; lia].
Qed.
Lemma step_send_finished c : xc_state c = CT_SendFinished -> xfacts 9 c -> wp (x_send_finished E) (xpost c) c.
Proof.
  intros Hst F. assert (F' : xfacts (xr (xc_state c)) c) by (rewrite Hst; exact F).
  assert (N1 : xr (xc_state c) = 1 -> False) by (rewrite Hst; discriminate).
  unfold x_send_finished. apply wp_bind, wp_get.
  assert (W : forall c1, KX c c1 -> wp (let! chs := of_opt EInvalidState (xc_chs c) in
    xeng (create_handshake13 E MT_Finished (compute_verify_data E chs)) ;;;
    modify (fun c0 => set_xc_events (xc_events c0 ++ [LE_Connected]) c0) ;;;
    (let! k := xeng (keying13 E (xc_srtp c)) in
     modify (fun c0 => set_xc_events (xc_events c0 ++ k) c0) ;;; xeng release13 ;;; ret CT_AwaitApplicationData)) (xpost c) c1).
  { intros c1 K1. apply wp_bind, of_opt_spec; [|xf]. intros chs Hchs.
    apply (xsend c); auto; [rewrite Hst; cbn; lia|intro e; apply (op_verify_data E _ GT_po)|]. intros c2 K2.
    apply wp_bind, wp_modify. apply wp_bind, wp_zoom.
    assert (F2 : xfacts 9 c2) by (eapply xfacts_next; [exact K2|discriminate|exact F]).
    destruct (xk_keys _ _ F2 ltac:(lia)) as (kx & cs & x & y & hs & P1 & _).
    eapply wp_mono; [apply (keying_spec E _ _ cs); exact P1|]. intros r e' (-> & k & -> & Hk).
    apply wp_bind, wp_modify, wp_bind, wp_zoom. unfold release13. apply wp_modify, wp_ret.
    match goal with |- xpost _ _ ?x => assert (D : exists c3, x = c3 /\ g_cfg (xc_eng c3) = g_cfg (xc_eng c2) /\ g_suite (xc_eng c3) = g_suite (xc_eng c2) /\ g_transcript (xc_eng c3) = g_transcript (xc_eng c2) /\
      g_exp (xc_eng c3) = g_exp (xc_eng c2) /\ xc_srtp c3 = xc_srtp c2 /\ xc_certs c3 = xc_certs c2 /\ xc_hs c3 = xc_hs c2 /\ xc_chs c3 = xc_chs c2 /\ xc_shs c3 = xc_shs c2 /\
      xc_events c3 = (xc_events c2 ++ [LE_Connected]) ++ k) by (eexists; split; [reflexivity|repeat split]) end.
    destruct D as (c3 & -> & D1 & D2 & D3 & D4 & D5 & D6 & D7 & D8 & D9 & D10).
    split; [left; rewrite D6; apply K2|]. split.
    { apply (xfacts_rank 9); [|cbn; lia]. destruct F2 as [A1 A2 A3 A4 A5]. split; try lia; [congruence|rewrite D5; exact A2|].
      rewrite D2, D3, D4, D6, D7, D8, D9. exact A5. }
    split; [cbn; lia|]. change (xr CT_AwaitApplicationData <? 10) with false. cbv iota.
    exists k. rewrite D10, !filter_app. cbn [filter is_ck]. rewrite (kx_ev _ _ (proj1 K2)), <- app_assoc. cbn [app].
    destruct Hk as [-> |(prof & km & exp & Q1 & -> & Q2 & Q3)]; [split; auto|].
    split; [reflexivity|]. right. exists km, prof, cs, exp. split; [reflexivity|]. rewrite D5, (kx_srtp _ _ (proj1 K2)), D2, D4. cbn in Q2. auto. }
  apply wp_bind. unfold when. destruct (negb (xc_auth c)); [|apply wp_ret, W; refl].
  apply (xw _ _ c c (gt_begin E)); [refl|]. intros [[]|e|n] c2 K2 _ _; [apply W, K2|xf..].
Qed.

Theorem x_step_early c : xr (xc_state c) < 10 -> xfacts (xr (xc_state c)) c -> wp (x_step E (xc_state c)) (xpost c) c.
Proof.
  intros Hn F. destruct (xc_state c) eqn:Hst; cbn [x_step]; try (exfalso; cbn in Hn; lia).
  - apply step_send_client_hello; assumption.
  - apply step_await_server_hello; assumption.
  - apply step_await_ee; assumption.
  - apply step_await_cr; assumption.
  - apply step_await_cert; assumption.
  - apply step_await_cv; assumption.
  - apply step_await_finished; assumption.
  - apply step_send_cert; assumption.
  - apply step_send_cv; assumption.
  - apply step_send_finished; assumption.
Qed.
End ClientFacts.
