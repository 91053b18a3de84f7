(** Invariants of a DTLS 1.3 endpoint indexed by the number of steps of some kind
    made so far. *)
From Verif Require Import Prelude PreludeFacts Types Monad MonadFacts Env Config Engine12 Client12 Engine13 Client13 Server13
  History12 History12Facts History13 Frame13 Lift13 Trace13 Trace13Proofs.

(** The values a computation can return. *)
Definition rets {S A} (P : A -> Prop) (m : M S A) : Prop := forall s, match fst (m s) with Ok a => P a | _ => True end.
Lemma rets_bind {S A B} (P : B -> Prop) (m : M S A) (k : A -> M S B) : (forall a, rets P (k a)) -> rets P (bind m k).
Proof. intros H s. unfold bind. destruct (m s) as [[a|e|n] s1]; [apply H|exact I..]. Qed.
Lemma rets_ret {S A} (P : A -> Prop) (a : A) : P a -> rets P (ret a : M S A).
Proof. intros H s. exact H. Qed.
Lemma rets_fail {S A} (P : A -> Prop) e : rets P (fail e : M S A).
Proof. intro s. exact I. Qed.
Lemma rets_panic {S A} (P : A -> Prop) n : rets P (panic n : M S A).
Proof. intro s. exact I. Qed.
Ltac rets done :=
  lazymatch goal with
  | |- rets _ (bind _ _) => apply rets_bind; intro; rets done
  | |- rets _ (ret _) => apply rets_ret; done
  | |- rets _ (fail _) => apply rets_fail
  | |- rets _ (panic _) => apply rets_panic
  | |- rets _ (match ?x with _ => _ end) => destruct x; rets done
  | |- rets _ (let _ := _ in _) => cbv zeta; rets done
  | |- _ => idtac
  end.

(** What the calls do to the engine outside of [make_progress]. *)
Record call_frame13 (E : Env) (R : Eng13 -> Eng13 -> Prop) : Prop := {
  kf_po : preorder R;
  kf_orc : forall v s, R s (set_g_orc v s);
  kf_parse : forall p, Pres R (eng13_parse_packet E p);
  kf_poll : forall cap now, Pres R (eng13_poll_output cap now);
  kf_timeout : forall now, Pres R (eng13_handle_timeout E now);
  kf_cipher : forall ct ep f, Pres R (create_cipher13 E ct ep false f);
  kf_cancel : Pres R cancel_flights;
  kf_abort : Pres R eng13_abort }.
Ltac call13_over over pre := constructor; fr13o over pre.
Ltac call13_all pre := constructor; fr13 pre.

Section ClientIndexed.
Variable E : Env.
Variable f : XMove -> bool.
Variable J : N -> Eng13 -> Prop.
Variable B : CState13 -> Prop.
Hypothesis F : forall k, call_frame13 E (fun a b => J k a -> J k b).
Hypothesis B_half : B CT_HalfClosedLocal.
Hypothesis B_closed : B CT_Closed.
Hypothesis J_step : forall k c r c', B (xc_state c) -> J k (xc_eng c) -> x_step E (xc_state c) c = (r, c') ->
  J (k + if f (c, r, c') then 1 else 0) (xc_eng c') /\ xc_state c' = xc_state c /\
  match r with Ok st => B st | _ => True end.
Definition JX (k : N) (c : Client13) : Prop := B (xc_state c) /\ J k (xc_eng c).

Lemma ix_eng {A} k (m : M Eng13 A) c : Pres (fun a b => J k a -> J k b) m -> JX k c -> JX k (snd (xeng m c)).
Proof.
  intros [H] [H1 H2]. unfold xeng, zoom. specialize (H (xc_eng c)). destruct (m (xc_eng c)) as [r e]. split; [exact H1|exact (H H2)].
Qed.

Lemma ix_moves n : forall k c, JX k c -> JX (k + count f (x_moves E n c)) (snd (x_progress E n c)).
Proof using J_step.
  induction n as [|n IH]; intros k c H; [change (JX (k + 0) c); rewrite N.add_0_r; exact H|].
  cbn [x_moves x_progress]. unfold bind, get.
  destruct (x_step E (xc_state c) c) as [r c'] eqn:Hs. destruct H as [HB HJ].
  destruct (J_step k _ _ _ HB HJ Hs) as (K1 & K2 & K3).
  rewrite count_cons, N.add_assoc.
  destruct r as [st|e|j]; cbn [snd].
  2,3: (change (count f []) with 0; rewrite N.add_0_r; split; [rewrite K2; exact HB|exact K1]).
  destruct (cstate13_eqb (xc_state c) st).
  - change (count f []) with 0. rewrite N.add_0_r. split; [cbn [ret snd]; rewrite K2; exact HB|exact K1].
  - unfold modify. apply IH. split; [exact K3|exact K1].
Qed.

Lemma ix_call j : forall k c, JX k c -> JX (k + count f (client13_moves E j c)) (snd (client13_call E j c)).
Proof using All.
  intros k c H. destruct j as [p|cap|now|d|]; cbn [client13_moves client13_call].
  - unfold no_output, client13_handle_packet, public, bind.
    pose proof (ix_eng k _ c (kf_parse _ _ (F k) p) H) as H1.
    destruct (xeng (eng13_parse_packet E p) c) as [r c1]. cbn [snd] in H1.
    destruct r as [[]|e|m].
    + pose proof (ix_moves 40 k c1 H1) as K. unfold x_make_progress.
      destruct (x_progress E 40 c1) as [[[]|[]|] c2]; exact K.
    + change (count f []) with 0. rewrite N.add_0_r. destruct e; exact H1.
    + change (count f []) with 0. rewrite N.add_0_r. exact H1.
  - change (count f []) with 0. rewrite N.add_0_r. unfold some_output, client13_poll_output, bind, get.
    destruct (xc_events c) as [|ev l].
    + pose proof (ix_eng k _ c (kf_poll _ _ (F k) cap (xc_now c)) H) as H1.
      destruct (xeng (eng13_poll_output cap (xc_now c)) c) as [[| |] c1]; exact H1.
    + unfold modify.
      pose proof (lf_event (fun a b : Client13 => JX k a -> JX k b) (preorder_inv _) ev cap (xc_certs c) (set_xc_events l c)) as K.
      assert (H0 : JX k (set_xc_events l c)) by exact H. specialize (K H0).
      destruct (event12_output ev cap (xc_certs c) (set_xc_events l c)) as [[| |] c2]; exact K.
  - unfold no_output. unfold bind at 1. rewrite tick_draw. unfold bind at 1.
    assert (P0 : JX k (draw_random13 E (set_xc_now now c))).
    { unfold draw_random13. destruct (xc_random (set_xc_now now c)); [exact H|].
      unfold xeng, zoom, rand_bytes13, draw13, bind, get, ret, modify. cbn [snd].
      destruct H as [H1 H2]. split; [exact H1|]. apply (kf_orc _ _ (F k)). exact H2. }
    pose proof (ix_eng k _ _ (kf_timeout _ _ (F k) now) P0) as H1.
    destruct (xeng (eng13_handle_timeout E now) (draw_random13 E (set_xc_now now c))) as [r c1]. cbn [snd] in H1.
    destruct r as [[]|e|m].
    + pose proof (ix_moves 40 k c1 H1) as K. unfold x_make_progress, public.
      destruct (x_progress E 40 c1) as [[[]|[]|] c2]; exact K.
    + change (count f []) with 0. rewrite N.add_0_r. exact H1.
    + change (count f []) with 0. rewrite N.add_0_r. exact H1.
  - change (count f []) with 0. rewrite N.add_0_r. unfold no_output, client13_send, bind, get.
    pose proof (ix_eng k _ c (kf_cipher _ _ (F k) CT_APP (g_epoch (xc_eng c)) d) H) as H1.
    destruct (xc_state c) eqn:Hst;
      try (destruct (xeng (create_cipher13 E CT_APP (g_epoch (xc_eng c)) false d) c) as [[| |] c1]; exact H1);
      cbn [modify fail ret snd]; split; try (cbn [xc_state set_xc_queued]); apply H.
  - change (count f []) with 0. rewrite N.add_0_r. unfold no_output, client13_close, bind, get.
    assert (Hc : forall st c1, JX k c1 -> B st -> JX k (set_xc_state st c1)).
    { intros st c1 [K1 K2] K. split; [exact K|exact K2]. }
    assert (Hab : JX k (snd ((xeng eng13_abort ;;; modify (set_xc_state CT_Closed)) c))).
    { unfold bind, modify. pose proof (ix_eng k _ c (kf_abort _ _ (F k)) H) as H1.
      destruct (xeng eng13_abort c) as [[| |] c1]; cbn [snd] in *; auto. }
    unfold bind in Hab.
    destruct (xc_state c) eqn:Hst; try exact H;
      try (destruct (xeng eng13_abort c) as [[| |] c1]; exact Hab).
    pose proof (ix_eng k _ c (kf_cipher _ _ (F k) CT_ALERT (g_epoch (xc_eng c)) [1; 0]) H) as H1.
    destruct (xeng (create_cipher13 E CT_ALERT (g_epoch (xc_eng c)) false [1; 0]) c) as [[| |] c1]; [|exact H1..].
    cbn [snd] in H1. pose proof (ix_eng k _ c1 (kf_cancel _ _ (F k)) H1) as H2.
    destruct (xeng cancel_flights c1) as [[| |] c2]; [|exact H2..]. unfold modify. cbn [snd ret] in *. auto.
Qed.

Lemma ix_trace cs : forall k c, JX k c ->
  JX (k + count f (x_trace E cs c)) (fold_left (fun c j => snd (client13_call E j c)) cs c).
Proof using All.
  induction cs as [|j cs IH]; intros k c H; [change (JX (k + 0) c); rewrite N.add_0_r; exact H|].
  cbn [x_trace fold_left]. rewrite count_app, N.add_assoc. apply IH, ix_call, H.
Qed.
End ClientIndexed.

Section ServerIndexed.
Variable E : Env.
Variable f : YMove -> bool.
Variable J : N -> Eng13 -> Prop.
Variable B : SState13 -> Prop.
Hypothesis F : forall k, call_frame13 E (fun a b => J k a -> J k b).
Hypothesis B_half : B ST_HalfClosedLocal.
Hypothesis B_closed : B ST_Closed.
Hypothesis J_step : forall k c r c', B (xs_state c) -> J k (xs_eng c) -> y_step E (xs_state c) c = (r, c') ->
  J (k + if f (c, r, c') then 1 else 0) (xs_eng c') /\ xs_state c' = xs_state c /\
  match r with Ok st => B st | _ => True end.
Definition JY (k : N) (c : Server13) : Prop := B (xs_state c) /\ J k (xs_eng c).

Lemma iy_eng {A} k (m : M Eng13 A) c : Pres (fun a b => J k a -> J k b) m -> JY k c -> JY k (snd (yeng m c)).
Proof.
  intros [H] [H1 H2]. unfold yeng, zoom. specialize (H (xs_eng c)). destruct (m (xs_eng c)) as [r e]. split; [exact H1|exact (H H2)].
Qed.

Lemma iy_moves n : forall k c, JY k c -> JY (k + count f (y_moves E n c)) (snd (y_progress E n c)).
Proof using J_step.
  induction n as [|n IH]; intros k c H; [change (JY (k + 0) c); rewrite N.add_0_r; exact H|].
  cbn [y_moves y_progress]. unfold bind, get.
  destruct (y_step E (xs_state c) c) as [r c'] eqn:Hs. destruct H as [HB HJ].
  destruct (J_step k _ _ _ HB HJ Hs) as (K1 & K2 & K3).
  rewrite count_cons, N.add_assoc.
  destruct r as [st|e|j]; cbn [snd].
  2,3: (change (count f []) with 0; rewrite N.add_0_r; split; [rewrite K2; exact HB|exact K1]).
  destruct (sstate13_eqb (xs_state c) st).
  - change (count f []) with 0. rewrite N.add_0_r. split; [cbn [ret snd]; rewrite K2; exact HB|exact K1].
  - unfold modify. apply IH. split; [exact K3|exact K1].
Qed.

Lemma iy_process p k c : JY k c ->
  JY (k + count f (match yeng (eng13_parse_packet E p) c with (Ok _, s1) => y_moves E 40 s1 | _ => [] end))
     (snd (public (y_process E p) c)).
Proof using All.
  intro H. unfold public, y_process, bind.
  pose proof (iy_eng k _ c (kf_parse _ _ (F k) p) H) as H1.
  destruct (yeng (eng13_parse_packet E p) c) as [r c1]. cbn [snd] in H1.
  destruct r as [[]|e|m].
  - pose proof (iy_moves 40 k c1 H1) as K. unfold y_make_progress.
    destruct (y_progress E 40 c1) as [[[]|e|] c2]; cbn [snd] in *.
    + unfold get, when, modify. destruct (_ && _); exact K.
    + destruct e; exact K.
    + exact K.
  - change (count f []) with 0. rewrite N.add_0_r. destruct e; exact H1.
  - change (count f []) with 0. rewrite N.add_0_r. exact H1.
Qed.

Lemma iy_call j : forall k c, JY k c -> JY (k + count f (server13_moves E j c)) (snd (server13_call E j c)).
Proof using All.
  intros k c H. destruct j as [p|cap|now|d|]; cbn [server13_moves server13_call].
  - unfold no_output, server13_handle_packet, bind, get.
    destruct (xs_auto c && sstate13_eqb (xs_state c) ST_AwaitClientHello).
    + destruct (MAX_RETAINED <=? len (xs_hellos c)).
      * change (count f []) with 0. rewrite N.add_0_r. exact H.
      * unfold modify. assert (H0 : JY k (set_xs_hellos (xs_hellos c ++ [p]) c)) by exact H.
        pose proof (iy_process p k _ H0) as K.
        destruct (public (y_process E p) (set_xs_hellos (xs_hellos c ++ [p]) c)) as [[[]|e|m] c2]; exact K.
    + pose proof (iy_process p k c H) as K. destruct (public (y_process E p) c) as [[[]|e|m] c2]; exact K.
  - change (count f []) with 0. rewrite N.add_0_r. unfold some_output, server13_poll_output, bind, get.
    destruct (xs_events c) as [|ev l].
    + pose proof (iy_eng k _ c (kf_poll _ _ (F k) cap (xs_now c)) H) as H1.
      destruct (yeng (eng13_poll_output cap (xs_now c)) c) as [[| |] c1]; exact H1.
    + unfold modify.
      pose proof (lf_event (fun a b : Server13 => JY k a -> JY k b) (preorder_inv _) ev cap (xs_certs c) (set_xs_events l c)) as K.
      assert (H0 : JY k (set_xs_events l c)) by exact H. specialize (K H0).
      destruct (event12_output ev cap (xs_certs c) (set_xs_events l c)) as [[| |] c2]; exact K.
  - unfold no_output. unfold bind at 1. rewrite tick_draws. unfold bind at 1.
    assert (P0 : JY k (draw_random13s E (set_xs_now now c))).
    { unfold draw_random13s. destruct (xs_random (set_xs_now now c)); [exact H|].
      unfold yeng, zoom, rand_bytes13, draw13, bind, get, ret, modify. cbn [snd].
      destruct H as [H1 H2]. split; [exact H1|]. apply (kf_orc _ _ (F k)). exact H2. }
    pose proof (iy_eng k _ _ (kf_timeout _ _ (F k) now) P0) as H1.
    destruct (yeng (eng13_handle_timeout E now) (draw_random13s E (set_xs_now now c))) as [r c1]. cbn [snd] in H1.
    destruct r as [[]|e|m].
    + pose proof (iy_moves 40 k c1 H1) as K. unfold y_make_progress, public.
      destruct (y_progress E 40 c1) as [[[]|[]|] c2]; exact K.
    + change (count f []) with 0. rewrite N.add_0_r. exact H1.
    + change (count f []) with 0. rewrite N.add_0_r. exact H1.
  - change (count f []) with 0. rewrite N.add_0_r. unfold no_output, server13_send, bind, get.
    pose proof (iy_eng k _ c (kf_cipher _ _ (F k) CT_APP (g_epoch (xs_eng c)) d) H) as H1.
    destruct (xs_state c) eqn:Hst;
      try (destruct (yeng (create_cipher13 E CT_APP (g_epoch (xs_eng c)) false d) c) as [[| |] c1]; exact H1);
      cbn [modify fail ret snd]; split; try (cbn [xs_state set_xs_queued]); apply H.
  - change (count f []) with 0. rewrite N.add_0_r. unfold no_output, server13_close, bind, get.
    assert (Hc : forall st c1, JY k c1 -> B st -> JY k (set_xs_state st c1)).
    { intros st c1 [K1 K2] K. split; [exact K|exact K2]. }
    assert (Hab : JY k (snd ((yeng eng13_abort ;;; modify (set_xs_state ST_Closed)) c))).
    { unfold bind, modify. pose proof (iy_eng k _ c (kf_abort _ _ (F k)) H) as H1.
      destruct (yeng eng13_abort c) as [[| |] c1]; cbn [snd] in *; auto. }
    unfold bind in Hab.
    destruct (xs_state c) eqn:Hst; try exact H;
      try (destruct (yeng eng13_abort c) as [[| |] c1]; exact Hab).
    pose proof (iy_eng k _ c (kf_cipher _ _ (F k) CT_ALERT (g_epoch (xs_eng c)) [1; 0]) H) as H1.
    destruct (yeng (create_cipher13 E CT_ALERT (g_epoch (xs_eng c)) false [1; 0]) c) as [[| |] c1]; [|exact H1..].
    cbn [snd] in H1. pose proof (iy_eng k _ c1 (kf_cancel _ _ (F k)) H1) as H2.
    destruct (yeng cancel_flights c1) as [[| |] c2]; [|exact H2..]. unfold modify. cbn [snd ret] in *. auto.
Qed.

Lemma iy_trace cs : forall k c, JY k c ->
  JY (k + count f (y_trace E cs c)) (fold_left (fun c j => snd (server13_call E j c)) cs c).
Proof using All.
  induction cs as [|j cs IH]; intros k c H; [change (JY (k + 0) c); rewrite N.add_0_r; exact H|].
  cbn [y_trace fold_left]. rewrite count_app, N.add_assoc. apply IH, iy_call, H.
Qed.
End ServerIndexed.
