(** What a DTLS 1.3 server that reported completion has established. *)
From Verif Require Import Prelude PreludeFacts Types Codec Codec12 Codec13 Record12 Record13 Monad MonadFacts
  Timer Env Config Prf Window Engine12 Client12 Engine13 Client13 Server13 Context12 History12 History13
  Frame13 Lift13 Trace13 Out13 Evidence12 Evidence13 ClientInv12 ClientStep12 HsEng13 ClientInv13 ClientStep13
  ClientDone13 ServerStep13.

Section ServerDone.
Variables (E : Env) (cfg : Config).

(** [V] holds the reports made and the reports waiting. *)
Definition JY (os : list Output) (c : Server13) : Prop :=
  let V := cks os ++ filter is_ck (xs_events c) in
  (yr (xs_state c) < 10 -> yfacts E cfg (yr (xs_state c)) c /\ V = []) /\
  (V = [] \/ 10 <= yr (xs_state c) /\ yfacts E cfg 10 c /\ exists k, V = LE_Connected :: k /\
    (k = [] \/ exists km p cs exp, k = [LE_Keying km p] /\ xs_srtp c = Some p /\
       g_suite (xs_eng c) = Some cs /\ g_exp (xs_eng c) = Some exp /\ keying_ok13 E cs exp p km)) /\
  (forall x, In (OPeerCert x) os -> hd_error (xs_certs c) = Some x).

Lemma jy_keep os a b : KY a b -> xs_state b = xs_state a -> xs_shared b = xs_shared a -> JY os a -> JY os b.
Proof.
  intros K Hs Hk (J1 & J2 & J3). unfold JY. rewrite Hs, (ky_ev _ _ (proj1 K)), (ky_certs _ _ (proj1 K)), (ky_srtp _ _ (proj1 K)).
  destruct (ky_eng _ _ (proj1 K)) as (G1 & G2 & G3). rewrite G2, (proj2 K). split; [|split; [|exact J3]].
  - intros H. destruct (J1 H) as [F V]. split; [|exact V]. eapply yfacts_keep; [|exact K|exact F]. intros _. left. exact Hk.
  - destruct J2 as [J2|(P1 & P2 & P3)]; [left; exact J2|right]. split; [exact P1|]. split; [|exact P3].
    eapply yfacts_next; [exact K|discriminate|exact P2].
Qed.
Lemma ky_z {A} (m : M Eng13 A) : pres GT m -> pres KY (yeng m).
Proof. intros P c. apply (yz m (fun _ c' => KY c c') c c P); [apply KY_po|auto]. Qed.
Lemma jy_eng {A} (m : M Eng13 A) os c : pres GT m -> JY os c -> JY os (snd (yeng m c)).
Proof.
  intros P H. eapply jy_keep; [apply (ky_z m P)| | |exact H]; unfold yeng, zoom; destruct (m (xs_eng c)) as [r e]; cbn; auto.
Qed.

Lemma ky_late st : 10 <= yr st -> pres KY (y_step E st).
Proof.
  intros Hst. assert (KM : forall f, (forall c, xs_eng (f c) = xs_eng c /\ xs_srtp (f c) = xs_srtp c /\ xs_certs (f c) = xs_certs c /\
    xs_hs (f c) = xs_hs c /\ xs_chs (f c) = xs_chs c /\ xs_shs (f c) = xs_shs c /\ xs_secret (f c) = xs_secret c /\ xs_events (f c) = xs_events c) -> pres KY (modify f)).
  { intros f H. apply pres_modify. intros c. destruct (H c) as (H1 & H2 & H3 & H4 & H5 & H6 & H7 & H8).
    split; [split; auto; [rewrite H1; repeat split; apply starts_with_refl|rewrite H8; reflexivity]|rewrite H1; reflexivity]. }
  destruct st; try (exfalso; cbn in Hst; lia); cbn [y_step]; unfold y_await_application_data, y_half_closed_local;
    presauto KY_po ltac:(first [apply ky_z; first [apply gt_needs|apply gt_key_update|apply gt_cipher|apply gt_update_recv|apply gt_send_ack
      |apply gt_advance|apply gt_next_kept] | apply KM; intro; repeat split]).
Qed.
Lemma late_state_y st c r c' : 10 <= yr st -> y_step E st c = (Ok r, c') -> 10 <= yr r.
Proof.
  intros Hst H. assert (W : wp (y_step E st) (fun r _ => match r with Ok s => 10 <= yr s | _ => True end) c).
  { destruct st; try (exfalso; cbn in Hst; lia); cbn [y_step]; unfold y_await_application_data, y_half_closed_local.
    - repeat first [wpstep | match goal with |- match ?x with _ => _ end => destruct x end
        | match goal with |- wp (yeng ?m) _ ?s => unfold wp at 1; destruct (yeng m s) as [[?|?|?] ?]; cbn [fst snd] end
        | match goal with |- wp (iterM ?f ?l) _ ?s => unfold wp at 1; destruct (iterM f l s) as [[?|?|?] ?]; cbn [fst snd] end
        | match goal with |- wp (when _ _) _ _ => apply wp_when end
        | match goal with |- wp (match ?x with _ => _ end) _ _ => destruct x end | exact I | (cbn; lia)].
    - repeat first [wpstep | match goal with |- match ?x with _ => _ end => destruct x end
        | match goal with |- wp (yeng ?m) _ ?s => unfold wp at 1; destruct (yeng m s) as [[?|?|?] ?]; cbn [fst snd] end
        | match goal with |- wp (match ?x with _ => _ end) _ _ => destruct x end | exact I | (cbn; lia)
        | match goal with |- context [is_some ?x] => destruct (is_some x) end].
    - apply wp_ret. cbn. lia. }
  unfold wp in W. rewrite H in W. exact W.
Qed.

Lemma jy_state os c st : (forall x, In (OPeerCert x) os -> hd_error (xs_certs c) = Some x) ->
  (yr st < 10 -> yfacts E cfg (yr st) c /\ cks os ++ filter is_ck (xs_events c) = []) ->
  (cks os ++ filter is_ck (xs_events c) = [] \/ 10 <= yr st /\ yfacts E cfg 10 c /\ exists k, cks os ++ filter is_ck (xs_events c) = LE_Connected :: k /\
    (k = [] \/ exists km p cs exp, k = [LE_Keying km p] /\ xs_srtp c = Some p /\
       g_suite (xs_eng c) = Some cs /\ g_exp (xs_eng c) = Some exp /\ keying_ok13 E cs exp p km)) -> JY os (set_xs_state st c).
Proof.
  intros H1 H2 H3. assert (F : forall n, yfacts E cfg n c -> yfacts E cfg n (set_xs_state st c)) by (intros n []; split; auto).
  split; [|split; [|exact H1]]; cbn [xs_state set_xs_state xs_events].
  - intros H. destruct (H2 H). auto.
  - destruct H3 as [H3|(P1 & P2 & P3)]; [left; exact H3|right]. auto.
Qed.

Lemma jy_step os c r c' : JY os c -> y_step E (xs_state c) c = (r, c') ->
  match r with Ok st => JY os (set_xs_state st c') | _ => JY os c' end.
Proof.
  intros J Hs. pose proof J as (J1 & J2 & J3). pose proof (y_step_state E (xs_state c) c) as Kst. rewrite Hs in Kst. cbn [snd] in Kst. symmetry in Kst.
  destruct (N.lt_ge_cases (yr (xs_state c)) 10) as [L|L].
  - destruct (J1 L) as [F V]. pose proof (y_step_early E cfg c L F) as W. unfold wp in W. rewrite Hs in W. cbn [fst snd] in W.
    destruct W as [W1 W2].
    assert (C : forall x, In (OPeerCert x) os -> hd_error (xs_certs c') = Some x).
    { intros x Hx. specialize (J3 x Hx). destruct W1 as [W1|W1]; [rewrite W1; exact J3|rewrite W1 in J3; discriminate]. }
    destruct r as [st|e|n].
    + destruct W2 as (F2 & L2 & V2). apply jy_state; [exact C|..].
      * intros Hlt. replace (yr st <? 10) with true in V2 by lia. rewrite V2. auto.
      * destruct (yr st <? 10) eqn:Hlt; [left; rewrite V2; exact V|right]. assert (yr st = 10) as Hx by lia. rewrite Hx in F2.
        split; [lia|]. split; [exact F2|]. destruct V2 as (k & V2 & Hk). exists k. split; [|exact Hk].
        rewrite V2, app_assoc, V. reflexivity.
    + destruct W2 as [F2 V2]. split; [|split; [left; rewrite V2; exact V|exact C]]. rewrite Kst, V2. auto.
    + destruct W2 as [F2 V2]. split; [|split; [left; rewrite V2; exact V|exact C]]. rewrite Kst, V2. auto.
  - pose proof (ky_late _ L c) as K. rewrite Hs in K. cbn [snd] in K.
    assert (J' : JY os c').
    { split; [rewrite Kst; lia|]. destruct (ky_eng _ _ (proj1 K)) as (G1 & G2 & G3).
      rewrite Kst, (ky_ev _ _ (proj1 K)), (ky_certs _ _ (proj1 K)), (ky_srtp _ _ (proj1 K)), G2, (proj2 K). split; [|exact J3].
      destruct J2 as [J2|(P1 & P2 & P3)]; [left; exact J2|right]. split; [exact P1|]. split; [|exact P3].
      eapply yfacts_next; [exact K|discriminate|exact P2]. }
    destruct r as [st|e|n]; [|exact J'..]. pose proof (late_state_y _ _ _ _ L Hs) as L'.
    destruct J' as (K1 & K2 & K3). apply jy_state; [exact K3|lia|]. destruct K2 as [K2|(P1 & P2 & P3)]; [left; exact K2|right; auto].
Qed.

Lemma jy_poll cap os c r c' : JY os c -> server13_poll_output cap c = (r, c') -> JY (os ++ out_of r) c'.
Proof.
  intros J Hp. unfold server13_poll_output, bind, get in Hp. destruct (xs_events c) as [|ev l] eqn:He.
  - pose proof (jy_eng (eng13_poll_output cap (xs_now c)) os c (gt_poll cap (xs_now c)) J) as J'. rewrite Hp in J'. cbn [snd] in J'.
    assert (O : match r with Ok o => plain_out o | _ => True end).
    { pose proof (eng_poll_plain cap (xs_now c) (xs_eng c)) as O. unfold yeng, zoom in Hp. destruct (eng13_poll_output _ _ _) as [r0 e0].
      injection Hp as <- _. exact O. }
    destruct r as [o|e|n]; cbn [out_of]; rewrite ?app_nil_r; try exact J'.
    destruct J' as (K1 & K2 & K3). unfold JY. rewrite cks_app, (plain_cks o O), app_nil_r. split; [exact K1|]. split; [exact K2|].
    intros x Hx. apply in_app_or in Hx. destruct Hx as [Hx|[-> |[]]]; [auto|destruct O].
  - unfold modify in Hp. apply event_report in Hp. destruct Hp as (-> & P1 & P2).
    destruct J as (J1 & J2 & J3). unfold JY. rewrite He in J1, J2.
    change (filter is_ck (ev :: l)) with (filter is_ck ([ev] ++ l)) in J1, J2. rewrite filter_app, <- P2, app_assoc, <- cks_app in J1, J2.
    assert (F : forall n, yfacts E cfg n c -> yfacts E cfg n (set_xs_events l c)) by (intros n []; split; auto).
    split; [|split].
    + intros L. destruct (J1 L). split; [apply F|]; assumption.
    + destruct J2 as [J2|(Q1 & Q2 & Q3)]; [left; exact J2|right; auto].
    + intros x Hx. apply in_app_or in Hx. destruct Hx; auto.
Qed.

Ltac jyk J := eapply jy_keep; [| | |exact J]; [|reflexivity|reflexivity]; split; [split; auto; repeat split; apply starts_with_refl|reflexivity].
Lemma jy_start os c now : JY os c -> JY os (draw_random13s E (set_xs_now now c)).
Proof.
  intros J. assert (J1 : JY os (set_xs_now now c)) by (jyk J).
  revert J1. generalize (set_xs_now now c) as d. intros d J1. unfold draw_random13s. destruct (xs_random d); [exact J1|].
  unfold bind. pose proof (jy_eng (rand_bytes13 E 32) os d) as K.
  assert (P : pres GT (rand_bytes13 E 32)). { unfold rand_bytes13. presauto GT_po ltac:(first [apply gt_draw|idtac]). }
  specialize (K P J1). destruct (yeng (rand_bytes13 E 32) d) as [[v|e|n] d']; cbn [snd modify] in *; try exact K.
  jyk K.
Qed.
Lemma jy_send d os c : JY os c -> JY os (snd (server13_send E d c)).
Proof.
  intros J. unfold server13_send, bind, get. destruct (xs_state c); try exact J; try (jyk J).
  apply jy_eng; [apply gt_cipher|exact J].
Qed.
Lemma jy_end st os c : 10 <= yr st -> JY os c -> JY os (set_xs_state st c).
Proof.
  intros L (J1 & J2 & J3). apply jy_state; [exact J3|lia|]. destruct J2 as [J2|(P1 & P2 & P3)]; [left; exact J2|right; auto].
Qed.
Lemma jy_close os c : JY os c -> JY os (snd (server13_close E c)).
Proof.
  intros J. unfold server13_close. unfold bind at 1, get at 1.
  assert (A : JY os (snd ((yeng eng13_abort ;;; modify (set_xs_state ST_Closed)) c))).
  { unfold bind. pose proof (jy_eng eng13_abort os c gt_abort J) as K. destruct (yeng eng13_abort c) as [[v|e|n] d']; try exact K.
    apply jy_end; [cbn; lia|exact K]. }
  destruct (xs_state c); try exact A; try exact J.
  unfold bind. pose proof (jy_eng _ os c (gt_cipher E CT_ALERT (g_epoch (xs_eng c)) false [1; 0]) J) as K.
  destruct (yeng (create_cipher13 E CT_ALERT (g_epoch (xs_eng c)) false [1; 0]) c) as [[v|e|n] d']; try exact K.
  cbn [snd] in K. pose proof (jy_eng _ os d' gt_cancel K) as K2. destruct (yeng cancel_flights d') as [[v2|e|n] d2]; try exact K2.
  apply jy_end; [cbn; lia|exact K2].
Qed.

Lemma jy_history c0 h s : JY [] c0 -> history13 E (XS c0) h s -> exists c, s = XS c /\ JY (outputs h) c.
Proof.
  intros H0 H. apply (bo_history E JY) with (c0 := c0); auto.
  - intros. apply jy_eng; [apply gt_parse|assumption].
  - intros. apply jy_start; assumption.
  - intros. apply jy_eng; [apply gt_timeout|assumption].
  - intros v os c J. jyk J.
  - intros v os c J. jyk J.
  - intros. eapply jy_step; eassumption.
  - intros. eapply jy_poll; eassumption.
  - intros. apply jy_send; assumption.
  - intros. apply jy_close; assumption.
Qed.
End ServerDone.

Theorem server_done13_facts E cfg cert key h c : reach13 E cfg cert key h (XS c) -> JY E cfg (outputs h) c.
Proof.
  intros (s0 & Hs & Hh). assert (K : forall d h0 s', history13 E (XC d) h0 s' -> exists d', s' = XC d').
  { intros d h0 s' H. clear Hh. induction H as [|h0 s1 k r s2 H IH NP C]; [eauto|].
    destruct IH as (d' & ->). cbn [end13_call] in C. destruct (client13_call E k d') as [r' d'']. injection C as _ <-. eauto. }
  destruct Hs as [s0 Hf|random fragment kx now c0 Hc]; [|destruct (K _ _ _ Hh) as (d' & Hd); discriminate].
  destruct s0 as [c0|c0]; [destruct (K _ _ _ Hh) as (d' & Hd); discriminate|].
  apply fresh13_shape in Hf. destruct Hf as (F1 & F2 & F3 & F4 & F5 & F6 & F7).
  destruct (jy_history E cfg c0 h (XS c)) as (c1 & [= <-] & J); [|exact Hh|exact J].
  split; [|split; [left; rewrite F6; reflexivity|intros x []]]. rewrite F3, F6. intros _. split; [|reflexivity].
  split; cbn [yr]; try lia; auto.
Qed.
