(** What a DTLS 1.3 client that reported completion has established. *)
From Verif Require Import Prelude PreludeFacts Types Codec Codec12 Codec13 Record12 Record13 Monad MonadFacts
  Timer Env Config Prf Window Engine12 Client12 Engine13 Client13 Server13 Context12 History12 History13
  Frame13 Lift13 Trace13 Out13 Evidence12 Evidence13 ClientInv12 ClientStep12 HsEng13 ClientInv13 ClientStep13.

(** The reports about completion among the outputs, as events. *)
Definition ck_of (o : Output) : list LocalEvent12 :=
  match o with OConnected => [LE_Connected] | OKeying m p => [LE_Keying m p] | _ => [] end.
Definition cks (os : list Output) : list LocalEvent12 := flat_map ck_of os.
Lemma cks_app a b : cks (a ++ b) = cks a ++ cks b.
Proof. apply flat_map_app. Qed.

(** The engine makes no such report. *)
Definition plain_out (o : Output) : Prop :=
  match o with OConnected | OKeying _ _ | OPeerCert _ => False | _ => True end.
Lemma eng_poll_plain cap now e : match fst (eng13_poll_output cap now e) with Ok o => plain_out o | _ => True end.
Proof.
  change (wp (eng13_poll_output cap now) (fun r _ => match r with Ok o => plain_out o | _ => True end) e).
  unfold eng13_poll_output, poll_app_data13, poll_packet_tx13.
  repeat first [wpstep | match goal with |- context [match ?x with _ => _ end] => destruct x end | exact I].
Qed.
Lemma plain_cks o : plain_out o -> cks [o] = [].
Proof. destruct o; intros H; try reflexivity; destruct H. Qed.

Lemma event_report ev cap certs S (s : S) r s' : event12_output ev cap certs s = (r, s') ->
  s' = s /\ (forall x, In (OPeerCert x) (out_of r) -> hd_error certs = Some x) /\
  (cks (out_of r) = filter is_ck [ev]).
Proof.
  destruct ev as [| |km p]; cbn [event12_output]; unfold ret, panic.
  - destruct certs as [|c l]; [intros [= <- <-]; split; auto; split; [intros x []|reflexivity]|].
    destruct (len c <=? cap); intros [= <- <-]; (split; [reflexivity|]); split; try reflexivity; [|intros x []].
    intros x [[= <-]|[]]. reflexivity.
  - intros [= <- <-]. split; [reflexivity|]. split; [|reflexivity]. intros x [H|[]]. discriminate.
  - intros [= <- <-]. split; [reflexivity|]. split; [|reflexivity]. intros x [H|[]]. discriminate.
Qed.

Section ClientDone.
Variables (E : Env) (cfg : Config) (X : N * bytes * bytes -> Prop).

(** [V] holds the reports made and the reports waiting. *)
Definition JX (os : list Output) (c : Client13) : Prop :=
  let V := cks os ++ filter is_ck (xc_events c) in
  (xr (xc_state c) < 10 -> xfacts E cfg X (xr (xc_state c)) c /\ V = []) /\
  (V = [] \/ 10 <= xr (xc_state c) /\ xfacts E cfg X 10 c /\ exists k, V = LE_Connected :: k /\
    (k = [] \/ exists km p cs exp, k = [LE_Keying km p] /\ xc_srtp c = Some p /\
       g_suite (xc_eng c) = Some cs /\ g_exp (xc_eng c) = Some exp /\ keying_ok13 E cs exp p km)) /\
  (forall x, In (OPeerCert x) os -> hd_error (xc_certs c) = Some x).

Lemma jx_keep os a b : KX a b -> xc_state b = xc_state a -> (xc_kx b = xc_kx a \/ xc_kx b = None) -> JX os a -> JX os b.
Proof.
  intros K Hs Hk (J1 & J2 & J3). unfold JX. rewrite Hs, (kx_ev _ _ (proj1 K)), (kx_certs _ _ (proj1 K)), (kx_srtp _ _ (proj1 K)).
  destruct (kx_eng _ _ (proj1 K)) as (G1 & G2 & G3). rewrite G2, (proj2 K). split; [|split; [|exact J3]].
  - intros H. destruct (J1 H) as [F V]. split; [|exact V]. eapply xfacts_keep; [exact K| |exact F]. intros _. exact Hk.
  - destruct J2 as [J2|(P1 & P2 & P3)]; [left; exact J2|right]. split; [exact P1|]. split; [|exact P3].
    eapply xfacts_next; [exact K|discriminate|exact P2].
Qed.
Lemma kx_z {A} (m : M Eng13 A) : pres GT m -> pres KX (xeng m).
Proof. intros P c. apply (xw m (fun _ c' => KX c c') c c P); [apply KX_po|auto]. Qed.
Lemma jx_eng {A} (m : M Eng13 A) os c : pres GT m -> JX os c -> JX os (snd (xeng m c)).
Proof.
  intros P H. eapply jx_keep; [apply (kx_z m P)| | |exact H]; unfold xeng, zoom; destruct (m (xc_eng c)) as [r e]; cbn; auto.
Qed.

Lemma gt_next_kept w : pres GT (next_handshake13_no_transcript w).
Proof.
  intros e. pose proof (next_msg false false w e) as H. unfold wp in H. unfold next_handshake13_no_transcript.
  destruct (next_handshake13_gen false false w e) as [[[m|]|x|n] e']; cbn [fst snd] in *; try exact H.
  destruct H as (H1 & H2 & H3 & H4 & _). rewrite app_nil_r in H4. repeat split; assumption.
Qed.
Lemma kx_late st : 10 <= xr st -> pres KX (x_step E st).
Proof.
  intros Hst. assert (KM : forall f, (forall c, xc_eng (f c) = xc_eng c /\ xc_srtp (f c) = xc_srtp c /\ xc_certs (f c) = xc_certs c /\
    xc_hs (f c) = xc_hs c /\ xc_chs (f c) = xc_chs c /\ xc_shs (f c) = xc_shs c /\ xc_events (f c) = xc_events c) -> pres KX (modify f)).
  { intros f H. apply pres_modify. intros c. destruct (H c) as (H1 & H2 & H3 & H4 & H5 & H6 & H7).
    split; [split; auto; [rewrite H1; repeat split; apply starts_with_refl|rewrite H7; reflexivity]|rewrite H1; reflexivity]. }
  destruct st; try (exfalso; cbn in Hst; lia); cbn [x_step]; unfold x_await_application_data, x_half_closed_local;
    presauto KX_po ltac:(first [apply kx_z; first [apply gt_needs|apply gt_key_update|apply gt_cipher|apply gt_update_recv|apply gt_send_ack
      |apply gt_advance|apply gt_next_kept] | apply KM; intro; repeat split]).
Qed.
Lemma late_state st c r c' : 10 <= xr st -> x_step E st c = (Ok r, c') -> 10 <= xr r.
Proof.
  intros Hst H. assert (W : wp (x_step E st) (fun r _ => match r with Ok s => 10 <= xr s | _ => True end) c).
  { destruct st; try (exfalso; cbn in Hst; lia); cbn [x_step]; unfold x_await_application_data, x_half_closed_local.
    - repeat first [wpstep | match goal with |- match ?x with _ => _ end => destruct x end
        | match goal with |- wp (xeng ?m) _ ?s => unfold wp at 1; destruct (xeng m s) as [[?|?|?] ?]; cbn [fst snd] end
        | match goal with |- wp (iterM ?f ?l) _ ?s => unfold wp at 1; destruct (iterM f l s) as [[?|?|?] ?]; cbn [fst snd] end
        | match goal with |- wp (when _ _) _ _ => apply wp_when end
        | match goal with |- wp (match ?x with _ => _ end) _ _ => destruct x end | exact I | (cbn; lia)].
    - repeat first [wpstep | match goal with |- match ?x with _ => _ end => destruct x end
        | match goal with |- wp (xeng ?m) _ ?s => unfold wp at 1; destruct (xeng m s) as [[?|?|?] ?]; cbn [fst snd] end
        | match goal with |- wp (match ?x with _ => _ end) _ _ => destruct x end | exact I | (cbn; lia)
        | match goal with |- context [is_some ?x] => destruct (is_some x) end].
    - apply wp_ret. cbn. lia. }
  unfold wp in W. rewrite H in W. exact W.
Qed.

Lemma jx_state os c st : (forall x, In (OPeerCert x) os -> hd_error (xc_certs c) = Some x) ->
  (xr st < 10 -> xfacts E cfg X (xr st) c /\ cks os ++ filter is_ck (xc_events c) = []) ->
  (cks os ++ filter is_ck (xc_events c) = [] \/ 10 <= xr st /\ xfacts E cfg X 10 c /\ exists k, cks os ++ filter is_ck (xc_events c) = LE_Connected :: k /\
    (k = [] \/ exists km p cs exp, k = [LE_Keying km p] /\ xc_srtp c = Some p /\
       g_suite (xc_eng c) = Some cs /\ g_exp (xc_eng c) = Some exp /\ keying_ok13 E cs exp p km)) -> JX os (set_xc_state st c).
Proof.
  intros H1 H2 H3. assert (F : forall n, xfacts E cfg X n c -> xfacts E cfg X n (set_xc_state st c)) by (intros n []; split; auto).
  split; [|split; [|exact H1]]; cbn [xc_state set_xc_state xc_events].
  - intros H. destruct (H2 H). auto.
  - destruct H3 as [H3|(P1 & P2 & P3)]; [left; exact H3|right]. auto.
Qed.

Lemma jx_step os c r c' : JX os c -> x_step E (xc_state c) c = (r, c') ->
  match r with Ok st => JX os (set_xc_state st c') | _ => JX os c' \/ False end.
Proof.
  intros J Hs. pose proof J as (J1 & J2 & J3). pose proof (x_step_state E (xc_state c) c) as Kst. rewrite Hs in Kst. cbn [snd] in Kst. symmetry in Kst.
  destruct (N.lt_ge_cases (xr (xc_state c)) 10) as [L|L].
  - destruct (J1 L) as [F V]. pose proof (x_step_early E cfg X c L F) as W. unfold wp in W. rewrite Hs in W. cbn [fst snd] in W.
    destruct W as [W1 W2].
    assert (C : forall x, In (OPeerCert x) os -> hd_error (xc_certs c') = Some x).
    { intros x Hx. specialize (J3 x Hx). destruct W1 as [W1|W1]; [rewrite W1; exact J3|rewrite W1 in J3; discriminate]. }
    destruct r as [st|e|n].
    + destruct W2 as (F2 & L2 & V2). apply jx_state; [exact C|..].
      * intros Hlt. replace (xr st <? 10) with true in V2 by lia. rewrite V2. auto.
      * destruct (xr st <? 10) eqn:Hlt; [left; rewrite V2; exact V|right]. assert (xr st = 10) as Hx by lia. rewrite Hx in F2.
        split; [lia|]. split; [exact F2|]. destruct V2 as (k & V2 & Hk). exists k. split; [|exact Hk].
        rewrite V2, app_assoc, V. reflexivity.
    + left. destruct W2 as [F2 V2]. split; [|split; [left; rewrite V2; exact V|exact C]]. rewrite Kst, V2. auto.
    + left. destruct W2 as [F2 V2]. split; [|split; [left; rewrite V2; exact V|exact C]]. rewrite Kst, V2. auto.
  - pose proof (kx_late _ L c) as K. rewrite Hs in K. cbn [snd] in K.
    assert (J' : JX os c').
    { split; [rewrite Kst; lia|]. destruct (kx_eng _ _ (proj1 K)) as (G1 & G2 & G3).
      rewrite Kst, (kx_ev _ _ (proj1 K)), (kx_certs _ _ (proj1 K)), (kx_srtp _ _ (proj1 K)), G2, (proj2 K). split; [|exact J3].
      destruct J2 as [J2|(P1 & P2 & P3)]; [left; exact J2|right]. split; [exact P1|]. split; [|exact P3].
      eapply xfacts_next; [exact K|discriminate|exact P2]. }
    destruct r as [st|e|n]; [|left; exact J'..]. pose proof (late_state _ _ _ _ L Hs) as L'.
    destruct J' as (K1 & K2 & K3). apply jx_state; [exact K3|lia|]. destruct K2 as [K2|(P1 & P2 & P3)]; [left; exact K2|right; auto].
Qed.

Lemma jx_poll cap os c r c' : JX os c -> client13_poll_output cap c = (r, c') -> JX (os ++ out_of r) c'.
Proof.
  intros J Hp. unfold client13_poll_output, bind, get in Hp. destruct (xc_events c) as [|ev l] eqn:He.
  - pose proof (jx_eng (eng13_poll_output cap (xc_now c)) os c (gt_poll cap (xc_now c)) J) as J'. rewrite Hp in J'. cbn [snd] in J'.
    assert (O : match r with Ok o => plain_out o | _ => True end).
    { pose proof (eng_poll_plain cap (xc_now c) (xc_eng c)) as O. unfold xeng, zoom in Hp. destruct (eng13_poll_output _ _ _) as [r0 e0].
      injection Hp as <- _. exact O. }
    destruct r as [o|e|n]; cbn [out_of]; rewrite ?app_nil_r; try exact J'.
    destruct J' as (K1 & K2 & K3). unfold JX. rewrite cks_app, (plain_cks o O), app_nil_r. split; [exact K1|]. split; [exact K2|].
    intros x Hx. apply in_app_or in Hx. destruct Hx as [Hx|[-> |[]]]; [auto|destruct O].
  - unfold modify in Hp. apply event_report in Hp. destruct Hp as (-> & P1 & P2).
    destruct J as (J1 & J2 & J3). unfold JX. rewrite He in J1, J2.
    change (filter is_ck (ev :: l)) with (filter is_ck ([ev] ++ l)) in J1, J2. rewrite filter_app, <- P2, app_assoc, <- cks_app in J1, J2.
    assert (F : forall n, xfacts E cfg X n c -> xfacts E cfg X n (set_xc_events l c)) by (intros n []; split; auto).
    split; [|split].
    + intros L. destruct (J1 L). split; [apply F|]; assumption.
    + destruct J2 as [J2|(Q1 & Q2 & Q3)]; [left; exact J2|right; auto].
    + intros x Hx. apply in_app_or in Hx. destruct Hx; auto.
Qed.

Lemma jx_start os c now : JX os c -> JX os (draw_random13 E (set_xc_now now c)).
Proof.
  intros J. assert (J1 : JX os (set_xc_now now c)).
  { eapply jx_keep; [| | |exact J]; [|reflexivity|left; reflexivity]. split; [split; auto; repeat split; apply starts_with_refl|reflexivity]. }
  revert J1. generalize (set_xc_now now c) as d. intros d J1. unfold draw_random13. destruct (xc_random d); [exact J1|].
  unfold bind. pose proof (jx_eng (rand_bytes13 E 32) os d) as K.
  assert (P : pres GT (rand_bytes13 E 32)). { unfold rand_bytes13. presauto GT_po ltac:(first [apply gt_draw|idtac]). }
  specialize (K P J1). destruct (xeng (rand_bytes13 E 32) d) as [[v|e|n] d']; cbn [snd modify] in *; try exact K.
  eapply jx_keep; [| | |exact K]; [|reflexivity|left; reflexivity]. split; [split; auto; repeat split; apply starts_with_refl|reflexivity].
Qed.
Lemma jx_send d os c : JX os c -> JX os (snd (client13_send E d c)).
Proof.
  intros J. unfold client13_send, bind, get. destruct (xc_state c); try exact J;
    try (eapply jx_keep; [| | |exact J]; [|reflexivity|left; reflexivity]; split; [split; auto; repeat split; apply starts_with_refl|reflexivity]).
  apply jx_eng; [apply gt_cipher|exact J].
Qed.
Lemma jx_end st os c : 10 <= xr st -> JX os c -> JX os (set_xc_state st c).
Proof.
  intros L (J1 & J2 & J3). apply jx_state; [exact J3|lia|]. destruct J2 as [J2|(P1 & P2 & P3)]; [left; exact J2|right; auto].
Qed.
Lemma jx_close os c : JX os c -> JX os (snd (client13_close E c)).
Proof.
  intros J. unfold client13_close. unfold bind at 1, get at 1.
  assert (A : JX os (snd ((xeng eng13_abort ;;; modify (set_xc_state CT_Closed)) c))).
  { unfold bind. pose proof (jx_eng eng13_abort os c gt_abort J) as K. destruct (xeng eng13_abort c) as [[v|e|n] d']; try exact K.
    apply jx_end; [cbn; lia|exact K]. }
  destruct (xc_state c); try exact A; try exact J.
  unfold bind. pose proof (jx_eng _ os c (gt_cipher E CT_ALERT (g_epoch (xc_eng c)) false [1; 0]) J) as K.
  destruct (xeng (create_cipher13 E CT_ALERT (g_epoch (xc_eng c)) false [1; 0]) c) as [[v|e|n] d']; try exact K.
  cbn [snd] in K. pose proof (jx_eng _ os d' gt_cancel K) as K2. destruct (xeng cancel_flights d') as [[v2|e|n] d2]; try exact K2.
  apply jx_end; [cbn; lia|exact K2].
Qed.

Lemma jx_call k os c r c' : JX os c -> client13_call E k c = (r, c') ->
  JX (os ++ match r with Ok (Some o) => [o] | _ => [] end) c'.
Proof.
  intros H Hc. destruct (ao_call E JX (fun _ => False)) with (k := k) (os := os) (c := c) (r := r) (c' := c') as [K|[]]; auto.
  - intros. apply jx_eng; [apply gt_parse|assumption].
  - intros. apply jx_start; assumption.
  - intros. apply jx_eng; [apply gt_timeout|assumption].
  - intros. eapply jx_step; eassumption.
  - intros. eapply jx_poll; eassumption.
  - intros. apply jx_send; assumption.
  - intros. apply jx_close; assumption.
Qed.
Lemma jx_history c0 h s : JX [] c0 -> history13 E (XC c0) h s -> exists c, s = XC c /\ JX (outputs h) c.
Proof.
  intros H0 H. apply (ao_history_if E JX (fun _ => False)) with (c0 := c0); auto.
  - intros. apply jx_eng; [apply gt_parse|assumption].
  - intros. apply jx_start; assumption.
  - intros. apply jx_eng; [apply gt_timeout|assumption].
  - intros. eapply jx_step; eassumption.
  - intros. eapply jx_poll; eassumption.
  - intros. apply jx_send; assumption.
  - intros. apply jx_close; assumption.
Qed.
End ClientDone.

(** New endpoints. *)
Lemma fresh13_shape E cfg cert key s : fresh13 E cfg cert key s -> g_cfg (end13_eng s) = cfg /\ g_transcript (end13_eng s) = [] /\
  match s with
  | XC c => xc_state c = CT_SendClientHello /\ xc_srtp c = None /\ xc_certs c = [] /\ xc_events c = []
  | XS c => xs_state c = ST_AwaitClientHello /\ xs_srtp c = None /\ xs_certs c = [] /\ xs_events c = [] /\ xs_shared c = None
  end.
Proof. induction 1 as [now auto|s H (IH1 & IH2 & IH3)|s H (IH1 & IH2 & IH3)]; repeat split; assumption. Qed.

(** The client's key pair: made for a ClientHello in the transcript, or by the
    auto-sensing client it continues. *)
Definition client_key13 (E : Env) (cfg : Config) (cert : bytes) (key : KeyInfo) (s0 : End13) (T : bytes) (kx : N * bytes * bytes) : Prop :=
  offered13 E cfg T kx \/
  exists random fragment now c, client13_from_hybrid E random fragment kx cfg cert key now = (Ok tt, c) /\ s0 = XC c.

Lemma hybrid_done E cfg kx d now c0 h c : xc_state d = CT_AwaitServerHello -> g_cfg (xc_eng d) = cfg -> xc_srtp d = None ->
  xc_certs d = [] -> xc_events d = [] -> xc_kx d = Some kx -> snd (client13_call E (Tick now) d) = c0 ->
  history13 E (XC c0) h (XC c) -> JX E cfg (eq kx) (outputs h) c.
Proof.
  intros D1 D2 D3 D4 D5 D6 Hc Hh.
  destruct (client13_call E (Tick now) d) as [r c1] eqn:H1. cbn [snd] in Hc. subst c1.
  assert (J0 : JX E cfg (eq kx) [] d).
  { split; [|split; [left; rewrite D5; reflexivity|intros x []]]. rewrite D1, D5. intros _. split; [|reflexivity].
    split; [exact D2|rewrite D3; discriminate|auto| |cbn; lia].
    intros _ kx' Hk. right. congruence. }
  pose proof (jx_call _ _ _ _ _ _ _ _ J0 H1) as J1.
  assert (O : match r with Ok (Some o) => [o] | _ => [] end = []).
  { clear -H1. cbn [client13_call] in H1. unfold no_output, bind in H1. destruct (client13_handle_timeout _ _ _) as [[[]|e|n] c2]; injection H1 as <- _; reflexivity. }
  rewrite O in J1. destruct (jx_history E cfg (eq kx) c0 h (XC c)) as (c2 & [= <-] & J); [exact J1|exact Hh|exact J].
Qed.
Theorem client_done13_facts E cfg cert key s0 h c : start13 E cfg cert key s0 -> history13 E s0 h (XC c) ->
  exists X : N * bytes * bytes -> Prop, JX E cfg X (outputs h) c /\
    forall kx, X kx -> exists random fragment now c0, client13_from_hybrid E random fragment kx cfg cert key now = (Ok tt, c0) /\ s0 = XC c0.
Proof.
  intros Hs Hh. destruct Hs as [s0 Hf|random fragment kx now c0 Hc].
  - exists (fun _ => False). split; [|intros kx []]. destruct s0 as [c0|c0].
    + apply fresh13_shape in Hf. destruct Hf as (F1 & F2 & F3 & F4 & F5 & F6).
      destruct (jx_history E cfg (fun _ => False) c0 h (XC c)) as (c1 & [= <-] & J); [|exact Hh|exact J].
      split; [|split; [left; rewrite F6; reflexivity|intros x []]]. rewrite F3, F6. intros _. split; [|reflexivity].
      split; cbn [xr]; try lia; [exact F1|rewrite F4; discriminate|auto].
    + exfalso. clear -Hh. remember (XS c0) as s. remember (XC c) as s'. revert c Heqs'. 
      assert (K : forall s', history13 E s h s' -> exists d, s' = XS d).
      { clear -Heqs. intros s' H. induction H as [|h s1 k r s2 H (d & ->) NP C]; [eauto|]. cbn [end13_call] in C.
        destruct (server13_call E k d) as [r' d']. injection C as _ <-. eauto. }
      intros c ->. destruct (K _ Hh) as (d & Hd). discriminate.
  - exists (eq kx). split; [|intros kx' <-; exists random, fragment, now, c0; auto].
    rewrite from_hybrid in Hc. apply tick_run in Hc.
    apply (hybrid_done E cfg kx (hybrid_client E cfg cert key random fragment kx now) now c0 h c); try reflexivity; assumption.
Qed.
