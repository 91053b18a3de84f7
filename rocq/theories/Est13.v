(** What holds of a DTLS 1.3 endpoint from the moment it is connected: it is past the
    handshake, the peer's records must be encrypted, and data is released. *)
From Verif Require Import Prelude PreludeFacts Types Codec Codec12 Codec13 Record12 Record13 Monad MonadFacts Timer Env Config Prf Engine12 Client12
  Engine13 Client13 Server13 Context12 History12 History12Facts History13 Frame13 Lift13 Index13 Send13Proofs Trace13 Trace13Proofs Out13
  Evidence12 Evidence13 ClientInv12 ClientStep12 HsEng13 ClientInv13 ClientStep13 ClientDone13 ServerStep13 ServerDone13 Poll13Proofs Fin13 KeyUpd13.

Definition up13 (e : Eng13) : Prop := g_penc e = true /\ g_release e = true.
Lemma up_mono E : eng_frame13 E (fun a b => up13 a -> up13 b).
Proof.
  pose proof (preorder_inv up13) as PO.
  frame13_all ltac:(first [exact PO | intros v s H; exact H | intros s H; exact H | intros s [H1 H2]; split; first [assumption|reflexivity]
    | intros; assumption]).
Qed.
Lemma release_mono E : eng_frame13 E (fun a b => g_release a = true -> g_release b = true).
Proof.
  pose proof (preorder_inv (fun e => g_release e = true)) as PO.
  frame13_all ltac:(first [exact PO | intros v s H; exact H | intros s H; exact H | intros s H; reflexivity | intros; assumption]).
Qed.

Section EstX.
Variables (E : Env) (cfg : Config) (X : N * bytes * bytes -> Prop).

Definition Vx (os : list Output) (c : Client13) := cks os ++ filter is_ck (xc_events c).
Definition EX (os : list Output) (c : Client13) : Prop :=
  JX E cfg X os c /\ (np_x (xc_state c) = true -> g_penc (xc_eng c) = true) /\ (Vx os c <> [] -> up13 (xc_eng c)).

Lemma ex_move os c c' : EX os c -> JX E cfg X os c' -> xc_events c' = xc_events c ->
  (up13 (xc_eng c) -> up13 (xc_eng c')) -> (g_penc (xc_eng c) = true -> g_penc (xc_eng c') = true) ->
  (xc_state c' = xc_state c \/ np_x (xc_state c') = false \/ np_x (xc_state c) = true) -> EX os c'.
Proof.
  intros (J & P & U) J' He Hu Hp Hs. split; [exact J'|]. split.
  - intros H. apply Hp, P. destruct Hs as [<-|[Hs|Hs]]; [exact H|congruence|exact Hs].
  - unfold Vx. rewrite He. intros H. apply Hu, U, H.
Qed.
Lemma ex_eng {A} (m : M Eng13 A) os c : pres GT m -> pres (fun a b => up13 a -> up13 b) m -> pres (fun a b => g_penc a = true -> g_penc b = true) m ->
  EX os c -> EX os (snd (xeng m c)).
Proof.
  intros G U P H. pose proof (jx_eng E cfg X m os c G (proj1 H)) as J. specialize (U (xc_eng c)). specialize (P (xc_eng c)).
  destruct (xeng_eng m c) as [X1 X2]. eapply ex_move; [exact H|exact J| |rewrite X1; exact U|rewrite X1; exact P|left; exact X2].
  unfold xeng, zoom. destruct (m (xc_eng c)); reflexivity.
Qed.

Lemma release_x st : xr st < 10 -> posts (fun st' c' => xr st' = 10 -> g_release (xc_eng c') = true) (x_step E st).
Proof.
  intros L. destruct st; try (exfalso; cbn in L; lia); unfold_x_step;
    posts ltac:(idtac; first [discriminate | lazymatch goal with
      | |- _ = 10 -> _ => let H := fresh in intros H; exfalso; revert H;
          repeat match goal with |- context [if ?b then _ else _] => destruct b end; cbn; discriminate
      | |- posts _ (bind (xeng release13) _) => intro; unfold bind, xeng, zoom, release13, modify, ret; cbv beta iota zeta; intros _; reflexivity end ]).
Qed.

Lemma ex_step os c r c' : EX os c -> x_step E (xc_state c) c = (r, c') ->
  match r with Ok st => EX os (set_xc_state st c') | _ => EX os c' \/ False end.
Proof.
  intros (J & P & U) Hs. pose proof (jx_step E cfg X os c r c' J Hs) as J'.
  pose proof (x_step_state E (xc_state c) c) as Kst. rewrite Hs in Kst. cbn [snd] in Kst. symmetry in Kst.
  pose proof (np_x_step E c r c' P Hs) as P'.
  assert (UM : up13 (xc_eng c) -> up13 (xc_eng c')).
  { pose proof (lf_x_step E _ (up_mono E) (xc_state c) c) as K. rewrite Hs in K. exact K. }
  assert (RX : xr (xc_state c) < 10 -> match r with Ok st => xr st = 10 -> g_release (xc_eng c') = true | _ => True end).
  { intros L. pose proof (release_x _ L c) as K. rewrite Hs in K. destruct r; auto. }
  assert (KV : 10 <= xr (xc_state c) -> Vx os c' = Vx os c).
  { intros L. pose proof (kx_late E _ L c) as K. rewrite Hs in K. cbn [snd] in K. unfold Vx. rewrite (kx_ev _ _ (proj1 K)). reflexivity. }
  assert (V0 : xr (xc_state c) < 10 -> Vx os c = []) by (intros L; apply (proj1 J L)).
  assert (L12 : forall st, xr st <= 12) by (intros []; cbn; lia).
  destruct r as [st|e|n].
  - split; [exact J'|]. split; [exact P'|]. intros HV. change (Vx os (set_xc_state st c')) with (Vx os c') in HV.
    change (xc_eng (set_xc_state st c')) with (xc_eng c').
    destruct (N.lt_ge_cases (xr (xc_state c)) 10) as [L|L].
    + destruct J' as (_ & [J'|(J' & _)] & _); [elim HV; exact J'|]. cbn [xc_state set_xc_state] in J'.
      pose proof (x_step_early E cfg X c L (proj1 (proj1 J L))) as W. unfold wp in W. rewrite Hs in W. cbn [fst snd] in W.
      destruct W as (_ & _ & W & _). assert (Q : xr st = 10) by lia.
      split; [|apply (RX L), Q]. apply P'. destruct st; try discriminate Q; reflexivity.
    + rewrite KV in HV by exact L. apply UM, U, HV.
  - destruct J' as [J'|[]]. left. split; [exact J'|]. rewrite Kst. split; [exact P'|]. intros HV.
    destruct (N.lt_ge_cases (xr (xc_state c)) 10) as [L|L]; [|rewrite KV in HV by exact L; apply UM, U, HV].
    elim HV. apply (proj1 J'). rewrite Kst. exact L.
  - destruct J' as [J'|[]]. left. split; [exact J'|]. rewrite Kst. split; [exact P'|]. intros HV.
    destruct (N.lt_ge_cases (xr (xc_state c)) 10) as [L|L]; [|rewrite KV in HV by exact L; apply UM, U, HV].
    elim HV. apply (proj1 J'). rewrite Kst. exact L.
Qed.

Lemma ex_poll cap os c r c' : EX os c -> client13_poll_output cap c = (r, c') -> EX (os ++ out_of r) c'.
Proof.
  intros (J & P & U) Hp. pose proof (jx_poll E cfg X cap os c r c' J Hp) as J'. split; [exact J'|].
  unfold client13_poll_output, bind, get in Hp. destruct (xc_events c) as [|ev l] eqn:He.
  - assert (O : match r with Ok o => plain_out o | _ => True end).
    { pose proof (eng_poll_plain cap (xc_now c) (xc_eng c)) as O. unfold xeng, zoom in Hp. destruct (eng13_poll_output _ _ _) as [r0 e0].
      injection Hp as <- _. exact O. }
    pose proof (unPres _ _ (xf_poll _ _ (up_mono E) cap (xc_now c)) (xc_eng c)) as Q1.
    pose proof (unPres _ _ (xf_poll _ _ (penc_mono E) cap (xc_now c)) (xc_eng c)) as Q2.
    assert (Q : xc_eng c' = snd (eng13_poll_output cap (xc_now c) (xc_eng c)) /\ xc_state c' = xc_state c /\ xc_events c' = xc_events c).
    { unfold xeng, zoom in Hp. destruct (eng13_poll_output _ _ _) as [r0 e0]. injection Hp as _ <-. repeat split. }
    destruct Q as (-> & -> & Q). split; [intros H; apply Q2, P, H|]. intros HV. apply Q1, U. unfold Vx in *. rewrite Q in HV.
    destruct r as [o|e|n]; cbn [out_of] in HV; rewrite ?app_nil_r in HV; try exact HV.
    rewrite cks_app, (plain_cks o O), app_nil_r in HV. exact HV.
  - unfold modify in Hp. apply event_report in Hp. destruct Hp as (-> & P1 & P2). split; [exact P|].
    intros HV. apply U. unfold Vx in *. rewrite He. change (ev :: l) with ([ev] ++ l). rewrite filter_app, <- P2, app_assoc, <- cks_app. exact HV.
Qed.
Lemma ex_tick os c now : EX os c -> EX os (draw_random13 E (set_xc_now now c)).
Proof.
  intros H. pose proof (jx_start E cfg X os c now (proj1 H)) as J.
  assert (K : EX os (set_xc_now now c)).
  { destruct H as (H1 & H2 & H3). split; [|split; assumption]. eapply jx_keep; [| | |exact H1]; [|reflexivity|left; reflexivity].
    split; [split; auto; repeat split; apply starts_with_refl|reflexivity]. }
  eapply ex_move; [exact K|exact J|..]; unfold draw_random13; cbn; destruct (xc_random c); cbn; auto.
Qed.
Lemma ex_send d os c : EX os c -> EX os (snd (client13_send E d c)).
Proof.
  intros H. pose proof (jx_send E cfg X d os c (proj1 H)) as J.
  assert (K : xc_events (snd (client13_send E d c)) = xc_events c /\ xc_state (snd (client13_send E d c)) = xc_state c).
  { unfold client13_send, bind, get, xeng, zoom. destruct (xc_state c) eqn:Hst;
      try (split; [reflexivity|auto]; fail);
      match goal with |- context [create_cipher13 ?a ?b ?e ?f ?g ?i] => destruct (create_cipher13 a b e f g i) as [[?|?|?] ?] end; cbn; auto. }
  pose proof (lf_client13_call E _ (up_mono E) (Send d) c) as U. pose proof (lf_client13_call E _ (penc_mono E) (Send d) c) as P.
  cbn [client13_call] in U, P. rewrite snd_no_output in U, P. destruct K. eapply ex_move; eauto.
Qed.
Lemma ex_close os c : EX os c -> EX os (snd (client13_close E c)).
Proof.
  intros H. pose proof (jx_close E cfg X os c (proj1 H)) as J.
  assert (K : xc_events (snd (client13_close E c)) = xc_events c /\
    (xc_state (snd (client13_close E c)) = xc_state c \/ np_x (xc_state (snd (client13_close E c))) = false \/ np_x (xc_state c) = true)).
  { unfold client13_close, bind, get, xeng, zoom. destruct (xc_state c) eqn:Hst;
      try (split; [reflexivity|auto]; fail);
      match goal with |- context [create_cipher13 ?a ?b ?e ?f ?g ?i] => destruct (create_cipher13 a b e f g i) as [[?|?|?] ?] end; cbn; auto. }
  destruct K as [K1 K2].
  pose proof (lf_client13_call E _ (up_mono E) Close c) as U. pose proof (lf_client13_call E _ (penc_mono E) Close c) as P.
  cbn [client13_call] in U, P. rewrite snd_no_output in U, P. eapply ex_move; eassumption.
Qed.
Lemma ex_history c0 h s : EX [] c0 -> history13 E (XC c0) h s -> exists c, s = XC c /\ EX (outputs h) c.
Proof.
  intros H0 H. apply (ao_history_if E EX (fun _ => False)) with (c0 := c0); auto.
  - intros. apply ex_eng; [apply gt_parse|apply unPres, (xf_parse _ _ (up_mono E))|apply unPres, (xf_parse _ _ (penc_mono E))|assumption].
  - intros. apply ex_tick; assumption.
  - intros. apply ex_eng; [apply gt_timeout|apply unPres, (xf_timeout _ _ (up_mono E))|apply unPres, (xf_timeout _ _ (penc_mono E))|assumption].
  - intros. eapply ex_step; eassumption.
  - intros. eapply ex_poll; eassumption.
  - intros. apply ex_send; assumption.
  - intros. apply ex_close; assumption.
Qed.
End EstX.

Section EstY.
Variables (E : Env) (cfg : Config).

Definition Vy (os : list Output) (c : Server13) := cks os ++ filter is_ck (xs_events c).
Definition EY (os : list Output) (c : Server13) : Prop :=
  JY E cfg os c /\ (np_y (xs_state c) = true -> g_penc (xs_eng c) = true) /\ (Vy os c <> [] -> up13 (xs_eng c)).

Lemma ey_move os c c' : EY os c -> JY E cfg os c' -> xs_events c' = xs_events c ->
  (up13 (xs_eng c) -> up13 (xs_eng c')) -> (g_penc (xs_eng c) = true -> g_penc (xs_eng c') = true) ->
  (xs_state c' = xs_state c \/ np_y (xs_state c') = false \/ np_y (xs_state c) = true) -> EY os c'.
Proof.
  intros (J & P & U) J' He Hu Hp Hs. split; [exact J'|]. split.
  - intros H. apply Hp, P. destruct Hs as [<-|[Hs|Hs]]; [exact H|congruence|exact Hs].
  - unfold Vy. rewrite He. intros H. apply Hu, U, H.
Qed.
Lemma ey_eng {A} (m : M Eng13 A) os c : pres GT m -> pres (fun a b => up13 a -> up13 b) m -> pres (fun a b => g_penc a = true -> g_penc b = true) m ->
  EY os c -> EY os (snd (yeng m c)).
Proof.
  intros G U P H. pose proof (jy_eng E cfg m os c G (proj1 H)) as J. specialize (U (xs_eng c)). specialize (P (xs_eng c)).
  destruct (yeng_eng m c) as [X1 X2]. eapply ey_move; [exact H|exact J| |rewrite X1; exact U|rewrite X1; exact P|left; exact X2].
  unfold yeng, zoom. destruct (m (xs_eng c)); reflexivity.
Qed.

Lemma release_y st : yr st < 10 -> posts (fun st' c' => yr st' = 10 -> g_release (xs_eng c') = true) (y_step E st).
Proof.
  intros L. destruct st; try (exfalso; cbn in L; lia); unfold_y_step;
    posts ltac:(idtac; first [discriminate | lazymatch goal with
      | |- _ = 10 -> _ => let H := fresh in intros H; exfalso; revert H;
          repeat match goal with |- context [if ?b then _ else _] => destruct b end; cbn; discriminate
      | |- posts _ (bind (yeng release13_retaining) _) => intro; unfold bind, yeng, zoom, release13_retaining, modify, ret; cbv beta iota zeta; intros _; reflexivity end ]).
Qed.

Lemma ey_step os c r c' : EY os c -> y_step E (xs_state c) c = (r, c') ->
  match r with Ok st => EY os (set_xs_state st c') | _ => EY os c' end.
Proof.
  intros (J & P & U) Hs. pose proof (jy_step E cfg os c r c' J Hs) as J'.
  pose proof (y_step_state E (xs_state c) c) as Kst. rewrite Hs in Kst. cbn [snd] in Kst. symmetry in Kst.
  pose proof (np_y_step E c r c' P Hs) as P'.
  assert (UM : up13 (xs_eng c) -> up13 (xs_eng c')).
  { pose proof (lf_y_step E _ (up_mono E) (xs_state c) c) as K. rewrite Hs in K. exact K. }
  assert (RX : yr (xs_state c) < 10 -> match r with Ok st => yr st = 10 -> g_release (xs_eng c') = true | _ => True end).
  { intros L. pose proof (release_y _ L c) as K. rewrite Hs in K. destruct r; auto. }
  assert (KV : 10 <= yr (xs_state c) -> Vy os c' = Vy os c).
  { intros L. pose proof (ky_late E _ L c) as K. rewrite Hs in K. cbn [snd] in K. unfold Vy. rewrite (ky_ev _ _ (proj1 K)). reflexivity. }
  assert (V0 : yr (xs_state c) < 10 -> Vy os c = []) by (intros L; apply (proj1 J L)).
  destruct r as [st|e|n].
  - split; [exact J'|]. split; [exact P'|]. intros HV. change (Vy os (set_xs_state st c')) with (Vy os c') in HV.
    change (xs_eng (set_xs_state st c')) with (xs_eng c').
    destruct (N.lt_ge_cases (yr (xs_state c)) 10) as [L|L].
    + destruct J' as (_ & [J'|(J' & _)] & _); [elim HV; exact J'|]. cbn [xs_state set_xs_state] in J'.
      pose proof (y_step_early E cfg c L (proj1 (proj1 J L))) as W. unfold wp in W. rewrite Hs in W. cbn [fst snd] in W.
      destruct W as (_ & _ & W & _). assert (Q : yr st = 10) by lia.
      split; [|apply (RX L), Q]. apply P'. destruct st; try discriminate Q; reflexivity.
    + rewrite KV in HV by exact L. apply UM, U, HV.
  - split; [exact J'|]. rewrite Kst. split; [exact P'|]. intros HV.
    destruct (N.lt_ge_cases (yr (xs_state c)) 10) as [L|L]; [|rewrite KV in HV by exact L; apply UM, U, HV].
    elim HV. apply (proj1 J'). rewrite Kst. exact L.
  - split; [exact J'|]. rewrite Kst. split; [exact P'|]. intros HV.
    destruct (N.lt_ge_cases (yr (xs_state c)) 10) as [L|L]; [|rewrite KV in HV by exact L; apply UM, U, HV].
    elim HV. apply (proj1 J'). rewrite Kst. exact L.
Qed.

Lemma ey_poll cap os c r c' : EY os c -> server13_poll_output cap c = (r, c') -> EY (os ++ out_of r) c'.
Proof.
  intros (J & P & U) Hp. pose proof (jy_poll E cfg cap os c r c' J Hp) as J'. split; [exact J'|].
  unfold server13_poll_output, bind, get in Hp. destruct (xs_events c) as [|ev l] eqn:He.
  - assert (O : match r with Ok o => plain_out o | _ => True end).
    { pose proof (eng_poll_plain cap (xs_now c) (xs_eng c)) as O. unfold yeng, zoom in Hp. destruct (eng13_poll_output _ _ _) as [r0 e0].
      injection Hp as <- _. exact O. }
    pose proof (unPres _ _ (xf_poll _ _ (up_mono E) cap (xs_now c)) (xs_eng c)) as Q1.
    pose proof (unPres _ _ (xf_poll _ _ (penc_mono E) cap (xs_now c)) (xs_eng c)) as Q2.
    assert (Q : xs_eng c' = snd (eng13_poll_output cap (xs_now c) (xs_eng c)) /\ xs_state c' = xs_state c /\ xs_events c' = xs_events c).
    { unfold yeng, zoom in Hp. destruct (eng13_poll_output _ _ _) as [r0 e0]. injection Hp as _ <-. repeat split. }
    destruct Q as (-> & -> & Q). split; [intros H; apply Q2, P, H|]. intros HV. apply Q1, U. unfold Vy in *. rewrite Q in HV.
    destruct r as [o|e|n]; cbn [out_of] in HV; rewrite ?app_nil_r in HV; try exact HV.
    rewrite cks_app, (plain_cks o O), app_nil_r in HV. exact HV.
  - unfold modify in Hp. apply event_report in Hp. destruct Hp as (-> & P1 & P2). split; [exact P|].
    intros HV. apply U. unfold Vy in *. rewrite He. change (ev :: l) with ([ev] ++ l). rewrite filter_app, <- P2, app_assoc, <- cks_app. exact HV.
Qed.
Ltac jyk J := eapply jy_keep; [| | |exact J]; [|reflexivity|reflexivity]; split; [split; auto; repeat split; apply starts_with_refl|reflexivity].
Lemma ey_tick os c now : EY os c -> EY os (draw_random13s E (set_xs_now now c)).
Proof.
  intros H. pose proof (jy_start E cfg os c now (proj1 H)) as J.
  assert (K : EY os (set_xs_now now c)).
  { destruct H as (H1 & H2 & H3). split; [|split; assumption]. jyk H1. }
  eapply ey_move; [exact K|exact J|..]; unfold draw_random13s; cbn; destruct (xs_random c); cbn; auto.
Qed.
Lemma ey_send d os c : EY os c -> EY os (snd (server13_send E d c)).
Proof.
  intros H. pose proof (jy_send E cfg d os c (proj1 H)) as J.
  assert (K : xs_events (snd (server13_send E d c)) = xs_events c /\ xs_state (snd (server13_send E d c)) = xs_state c).
  { unfold server13_send, bind, get, yeng, zoom. destruct (xs_state c) eqn:Hst;
      try (split; [reflexivity|auto]; fail);
      match goal with |- context [create_cipher13 ?a ?b ?e ?f ?g ?i] => destruct (create_cipher13 a b e f g i) as [[?|?|?] ?] end; cbn; auto. }
  pose proof (lf_server13_call E _ (up_mono E) (Send d) c) as U. pose proof (lf_server13_call E _ (penc_mono E) (Send d) c) as P.
  cbn [server13_call] in U, P. rewrite snd_no_output in U, P. destruct K. eapply ey_move; eauto.
Qed.
Lemma ey_close os c : EY os c -> EY os (snd (server13_close E c)).
Proof.
  intros H. pose proof (jy_close E cfg os c (proj1 H)) as J.
  assert (K : xs_events (snd (server13_close E c)) = xs_events c /\
    (xs_state (snd (server13_close E c)) = xs_state c \/ np_y (xs_state (snd (server13_close E c))) = false \/ np_y (xs_state c) = true)).
  { unfold server13_close, bind, get, yeng, zoom. destruct (xs_state c) eqn:Hst;
      try (split; [reflexivity|auto]; fail);
      match goal with |- context [create_cipher13 ?a ?b ?e ?f ?g ?i] => destruct (create_cipher13 a b e f g i) as [[?|?|?] ?] end; cbn; auto. }
  destruct K as [K1 K2].
  pose proof (lf_server13_call E _ (up_mono E) Close c) as U. pose proof (lf_server13_call E _ (penc_mono E) Close c) as P.
  cbn [server13_call] in U, P. rewrite snd_no_output in U, P. eapply ey_move; eassumption.
Qed.
Lemma ey_history c0 h s : EY [] c0 -> history13 E (XS c0) h s -> exists c, s = XS c /\ EY (outputs h) c.
Proof.
  intros H0 H. apply (bo_history E EY) with (c0 := c0); auto.
  - intros. apply ey_eng; [apply gt_parse|apply unPres, (xf_parse _ _ (up_mono E))|apply unPres, (xf_parse _ _ (penc_mono E))|assumption].
  - intros. apply ey_tick; assumption.
  - intros. apply ey_eng; [apply gt_timeout|apply unPres, (xf_timeout _ _ (up_mono E))|apply unPres, (xf_timeout _ _ (penc_mono E))|assumption].
  - intros v os c (J & P). split; [jyk J|exact P].
  - intros v os c (J & P). split; [jyk J|exact P].
  - intros. eapply ey_step; eassumption.
  - intros. eapply ey_poll; eassumption.
  - intros. apply ey_send; assumption.
  - intros. apply ey_close; assumption.
Qed.
End EstY.

Lemma ex_hybrid E cfg kx d now c0 : xc_state d = CT_AwaitServerHello -> g_cfg (xc_eng d) = cfg -> xc_srtp d = None ->
  xc_certs d = [] -> xc_events d = [] -> xc_kx d = Some kx -> snd (client13_call E (Tick now) d) = c0 -> EX E cfg (eq kx) [] c0.
Proof.
  intros D1 D2 D3 D4 D5 D6 Hc.
  assert (J0 : EX E cfg (eq kx) [] d).
  { split; [|split; [rewrite D1; discriminate|unfold Vx; rewrite D5; intros K; elim K; reflexivity]].
    split; [|split; [left; rewrite D5; reflexivity|intros x []]]. rewrite D1, D5. intros _. split; [|reflexivity].
    split; [exact D2|rewrite D3; discriminate|auto| |cbn; lia]. intros _ kx' Hk. right. congruence. }
  destruct (client13_call E (Tick now) d) as [r c1] eqn:H1. cbn [snd] in Hc. subst c1.
  assert (O : outputs [(Tick now, r)] = []).
  { clear -H1. cbn [client13_call] in H1. unfold no_output, bind in H1.
    destruct (client13_handle_timeout _ _ _) as [[[]|e|n] c2]; injection H1 as <- _; reflexivity. }
  assert (H2 : history13 E (XC d) [(Tick now, r)] (XC c0)).
  { change [(Tick now, r)] with ([] ++ [(Tick now, r)]). eapply history13_snoc; [constructor|constructor|].
    cbn [end13_call]. rewrite H1. reflexivity. }
  destruct (ex_history E cfg (eq kx) d _ _ J0 H2) as (c1 & [= <-] & J1). rewrite O in J1. exact J1.
Qed.

(** Connected was reported, or is the next thing to be reported. *)
Definition seen_connected13 (h : list (Call * Reply)) (s : End13) : Prop :=
  In OConnected (outputs h) \/ In LE_Connected (end13_events s).
Lemma cks_connected os evs : In OConnected os \/ In LE_Connected evs -> cks os ++ filter is_ck evs <> [].
Proof.
  intros H K. assert (G : In LE_Connected (cks os ++ filter is_ck evs)); [|rewrite K in G; destruct G].
  apply in_or_app. destruct H as [H|H]; [left|right; apply filter_In; auto].
  unfold cks. apply in_flat_map. exists OConnected. split; [exact H|left; reflexivity].
Qed.
Theorem connected_up13 E cfg cert key h s : reach13 E cfg cert key h s -> seen_connected13 h s ->
  fin13 s = true /\ up13 (end13_eng s).
Proof.
  intros (s0 & Hs & Hh) C. apply cks_connected in C.
  assert (G : match s with XC c => exists X, EX E cfg X (outputs h) c | XS c => EY E cfg (outputs h) c end).
  { destruct Hs as [s0 Hf|random fragment kx now c0 Hc].
    - apply fresh13_shape in Hf. destruct Hf as (F1 & F2 & F3). destruct s0 as [c0|c0].
      + destruct F3 as (F3 & F4 & F5 & F6).
        destruct (ex_history E cfg (fun _ => False) c0 h s) as (c & -> & J); [|exact Hh|exists (fun _ => False); exact J].
        split; [|rewrite F3; split; [discriminate|unfold Vx; rewrite F6; intros K; elim K; reflexivity]].
        split; [|split; [left; rewrite F6; reflexivity|intros x []]]. rewrite F3, F6. intros _. split; [|reflexivity].
        split; cbn [xr]; try lia; [exact F1|rewrite F4; discriminate|auto].
      + destruct F3 as (F3 & F4 & F5 & F6 & F7).
        destruct (ey_history E cfg c0 h s) as (c & -> & J); [|exact Hh|exact J].
        split; [|rewrite F3; split; [discriminate|unfold Vy; rewrite F6; intros K; elim K; reflexivity]].
        split; [|split; [left; rewrite F6; reflexivity|intros x []]]. rewrite F3, F6. intros _. split; [|reflexivity].
        split; cbn [yr]; try lia; auto.
    - rewrite from_hybrid in Hc. apply tick_run in Hc.
      destruct (ex_history E cfg (eq kx) c0 h s) as (c & -> & J); [|exact Hh|exists (eq kx); exact J].
      apply (ex_hybrid E cfg kx (hybrid_client E cfg cert key random fragment kx now) now c0); try reflexivity; assumption. }
  destruct s as [c|c]; cbn [end13_events end13_eng fin13] in *.
  - destruct G as (X & (_ & J & _) & _ & U). split; [|apply U, C].
    destruct J as [J|(J & _)]; [elim C; exact J|]. destruct (xc_state c); cbn in J; try lia; reflexivity.
  - destruct G as ((_ & J & _) & _ & U). split; [|apply U, C].
    destruct J as [J|(J & _)]; [elim C; exact J|]. destruct (xs_state c); cbn in J; try lia; reflexivity.
Qed.
