(** Counting steps: a potential that grows with every counted step bounds their
    number. *)
From Verif Require Import Prelude PreludeFacts Types Monad MonadFacts Env Config Engine12 Client12 Engine13 Client13 Server13
  History12 History12Facts History13 Frame13 Lift13 Trace13.

Definition count {A} (f : A -> bool) (l : list A) : N := len (filter f l).
Lemma count_app {A} (f : A -> bool) l l' : count f (l ++ l') = count f l + count f l'.
Proof. unfold count. rewrite filter_app. apply len_app. Qed.
Lemma count_cons {A} (f : A -> bool) x l : count f (x :: l) = (if f x then 1 else 0) + count f l.
Proof. unfold count. cbn [filter]. destruct (f x); [rewrite len_cons; lia|reflexivity]. Qed.

Lemma tick_draw E now c : client13_handle_timeout E now c =
  (xeng (eng13_handle_timeout E now) ;;; public (x_make_progress E)) (draw_random13 E (set_xc_now now c)).
Proof.
  unfold client13_handle_timeout. unfold bind at 1 2, modify, get, draw_random13.
  destruct (xc_random (set_xc_now now c)) as [rd|]; reflexivity.
Qed.
Lemma tick_draws E now c : server13_handle_timeout E now c =
  (yeng (eng13_handle_timeout E now) ;;; public (y_make_progress E)) (draw_random13s E (set_xs_now now c)).
Proof.
  unfold server13_handle_timeout. unfold bind at 1 2, modify, get, draw_random13s.
  destruct (xs_random (set_xs_now now c)) as [rd|]; reflexivity.
Qed.

Section ClientCount.
Variable E : Env.
Variable f : XMove -> bool.
Variable pot : Client13 -> N.
Hypothesis pot_eng : forall v c, pot (set_xc_eng v c) = pot c.
Hypothesis pot_state : forall v c, pot (set_xc_state v c) = pot c.
Hypothesis pot_random : forall v c, pot (set_xc_random v c) = pot c.
Hypothesis pot_now : forall v c, pot (set_xc_now v c) = pot c.
Hypothesis pot_events : forall v c, pot (set_xc_events v c) = pot c.
Hypothesis pot_queued : forall v c, pot (set_xc_queued v c) = pot c.
Hypothesis pot_step : forall c r c', x_step E (xc_state c) c = (r, c') ->
  (if f (c, r, c') then 1 else 0) + pot c <= pot c'.

Lemma pot_moves n : forall c, count f (x_moves E n c) + pot c <= pot (snd (x_progress E n c)).
Proof using All.
  induction n as [|n IH]; intro c; [change (0 + pot c <= pot c); lia|].
  cbn [x_moves x_progress]. unfold bind, get.
  destruct (x_step E (xc_state c) c) as [r c'] eqn:Hs. pose proof (pot_step _ _ _ Hs) as K.
  rewrite count_cons.
  destruct r as [st|e|k]; cbn [snd]; [|change (count f []) with 0; lia..].
  destruct (cstate13_eqb (xc_state c) st).
  - change (count f []) with 0. cbn [ret snd]. lia.
  - unfold modify. specialize (IH (set_xc_state st c')). rewrite pot_state in IH. lia.
Qed.

Lemma pot_call k c : count f (client13_moves E k c) + pot c <= pot (snd (client13_call E k c)).
Proof using All.
  destruct k as [p|cap|now|d|]; cbn [client13_moves client13_call].
  - unfold no_output, client13_handle_packet, public, bind.
    destruct (xeng (eng13_parse_packet E p) c) as [r c1] eqn:H1.
    assert (P1 : pot c1 = pot c).
    { unfold xeng, zoom in H1. destruct (eng13_parse_packet E p (xc_eng c)). injection H1 as <- <-. apply pot_eng. }
    destruct r as [[]|e|m].
    + pose proof (pot_moves 40 c1) as K. unfold x_make_progress.
      destruct (x_progress E 40 c1) as [[[]|[]|] c2]; cbn [snd] in *; unfold ret; cbn [snd]; lia.
    + change (count f []) with 0. destruct e; unfold ret; cbn [snd]; lia.
    + change (count f []) with 0. cbn [snd]. lia.
  - change (count f []) with 0. unfold some_output, client13_poll_output, bind, get.
    destruct (xc_events c) as [|ev l].
    + unfold xeng, zoom. destruct (eng13_poll_output cap (xc_now c) (xc_eng c)) as [[| |] e]; cbn [snd ret];
        rewrite pot_eng; lia.
    + unfold modify. pose proof (lf_event (fun a b : Client13 => pot a = pot b) (preorder_eq pot) ev cap (xc_certs c) (set_xc_events l c)) as K.
      destruct (event12_output ev cap (xc_certs c) (set_xc_events l c)) as [[| |] c2]; cbn [snd ret] in *;
        rewrite pot_events in K; lia.
  - unfold no_output. unfold bind at 1. rewrite tick_draw. unfold bind at 1.
    assert (P0 : pot (draw_random13 E (set_xc_now now c)) = pot c).
    { unfold draw_random13. destruct (xc_random (set_xc_now now c)); [apply pot_now|].
      cbn [bind xeng zoom rand_bytes13 draw13 ret modify snd]. unfold xeng, zoom, rand_bytes13, draw13, bind, ret, modify. cbn [snd].
      rewrite pot_random, pot_eng, pot_now. reflexivity. }
    destruct (xeng (eng13_handle_timeout E now) (draw_random13 E (set_xc_now now c))) as [r c1] eqn:H1.
    assert (P1 : pot c1 = pot c).
    { rewrite <- P0. unfold xeng, zoom in H1. destruct (eng13_handle_timeout E now _). injection H1 as <- <-. apply pot_eng. }
    destruct r as [[]|e|m].
    + pose proof (pot_moves 40 c1) as K. unfold x_make_progress, public.
      destruct (x_progress E 40 c1) as [[[]|[]|] c2]; cbn [snd] in *; unfold ret; cbn [snd]; lia.
    + change (count f []) with 0. cbn [snd]; lia.
    + change (count f []) with 0. cbn [snd]. lia.
  - change (count f []) with 0. unfold no_output, client13_send, bind, get.
    assert (K : forall m : M Eng13 unit, 0 + pot c <= pot (snd (match xeng m c with
      | (Ok _, c1) => ret (@None Output) c1 | (Err e, c1) => (Err e, c1) | (Panic e, c1) => (Panic e, c1) end))).
    { intro m. unfold xeng, zoom. destruct (m (xc_eng c)) as [[[]|e|k] e']; cbn [snd ret]; rewrite pot_eng; lia. }
    destruct (xc_state c); try apply K; cbn [fail modify ret snd]; rewrite ?pot_queued; lia.
  - change (count f []) with 0.
    assert (G : pres (fun a b => pot a = pot b) (no_output (client13_close E))).
    { unfold no_output, client13_close. presauto (@preorder_eq Client13 N pot) ltac:(first
        [ apply pres_modify; intro; symmetry; apply pot_state
        | intro; unfold xeng, zoom; match goal with |- context [?m (xc_eng ?s)] => destruct (m (xc_eng s)) end; symmetry; apply pot_eng]). }
    rewrite <- (G c). lia.
Qed.

Lemma pot_trace cs : forall c,
  count f (x_trace E cs c) + pot c <= pot (fold_left (fun c k => snd (client13_call E k c)) cs c).
Proof using All.
  induction cs as [|k cs IH]; intro c; [change (0 + pot c <= pot c); lia|]. cbn [x_trace fold_left]. rewrite count_app.
  pose proof (pot_call k c). specialize (IH (snd (client13_call E k c))). lia.
Qed.
End ClientCount.

Section ServerCount.
Variable E : Env.
Variable f : YMove -> bool.
Variable pot : Server13 -> N.
Hypothesis pot_eng : forall v c, pot (set_xs_eng v c) = pot c.
Hypothesis pot_state : forall v c, pot (set_xs_state v c) = pot c.
Hypothesis pot_random : forall v c, pot (set_xs_random v c) = pot c.
Hypothesis pot_now : forall v c, pot (set_xs_now v c) = pot c.
Hypothesis pot_events : forall v c, pot (set_xs_events v c) = pot c.
Hypothesis pot_queued : forall v c, pot (set_xs_queued v c) = pot c.
Hypothesis pot_hellos : forall v c, pot (set_xs_hellos v c) = pot c.
Hypothesis pot_auto : forall v c, pot (set_xs_auto v c) = pot c.
Hypothesis pot_step : forall c r c', y_step E (xs_state c) c = (r, c') ->
  (if f (c, r, c') then 1 else 0) + pot c <= pot c'.

Lemma pot_moves_s n : forall c, count f (y_moves E n c) + pot c <= pot (snd (y_progress E n c)).
Proof using All.
  induction n as [|n IH]; intro c; [change (0 + pot c <= pot c); lia|].
  cbn [y_moves y_progress]. unfold bind, get.
  destruct (y_step E (xs_state c) c) as [r c'] eqn:Hs. pose proof (pot_step _ _ _ Hs) as K.
  rewrite count_cons.
  destruct r as [st|e|k]; cbn [snd]; [|change (count f []) with 0; lia..].
  destruct (sstate13_eqb (xs_state c) st).
  - change (count f []) with 0. cbn [ret snd]. lia.
  - unfold modify. specialize (IH (set_xs_state st c')). rewrite pot_state in IH. lia.
Qed.

Lemma pot_process p c :
  count f (match yeng (eng13_parse_packet E p) c with (Ok _, s1) => y_moves E 40 s1 | _ => [] end) + pot c <=
  pot (snd (public (y_process E p) c)).
Proof using All.
  unfold public, y_process, bind.
  destruct (yeng (eng13_parse_packet E p) c) as [r c1] eqn:H1.
  assert (P1 : pot c1 = pot c).
  { unfold yeng, zoom in H1. destruct (eng13_parse_packet E p (xs_eng c)). injection H1 as <- <-. apply pot_eng. }
  destruct r as [[]|e|m].
  - pose proof (pot_moves_s 40 c1) as K. unfold y_make_progress.
    destruct (y_progress E 40 c1) as [[[]|e|] c2]; cbn [snd] in *.
    + unfold get, when, modify. destruct (_ && _); cbn [snd ret]; rewrite ?pot_auto, ?pot_hellos; lia.
    + destruct e; cbn [snd]; lia.
    + lia.
  - change (count f []) with 0. destruct e; cbn [snd]; lia.
  - change (count f []) with 0. cbn [snd]. lia.
Qed.

Lemma pot_call_s k c : count f (server13_moves E k c) + pot c <= pot (snd (server13_call E k c)).
Proof using All.
  destruct k as [p|cap|now|d|]; cbn [server13_moves server13_call].
  - unfold no_output, server13_handle_packet, bind, get.
    destruct (xs_auto c && sstate13_eqb (xs_state c) ST_AwaitClientHello).
    + destruct (MAX_RETAINED <=? len (xs_hellos c)).
      * change (count f []) with 0. cbn [fail snd]. lia.
      * unfold modify. pose proof (pot_process p (set_xs_hellos (xs_hellos c ++ [p]) c)) as K.
        rewrite pot_hellos in K.
        destruct (public (y_process E p) (set_xs_hellos (xs_hellos c ++ [p]) c)) as [[[]|e|m] c2]; exact K.
    + pose proof (pot_process p c) as K. destruct (public (y_process E p) c) as [[[]|e|m] c2]; exact K.
  - change (count f []) with 0. unfold some_output, server13_poll_output, bind, get.
    destruct (xs_events c) as [|ev l].
    + unfold yeng, zoom. destruct (eng13_poll_output cap (xs_now c) (xs_eng c)) as [[| |] e]; cbn [snd ret];
        rewrite pot_eng; lia.
    + unfold modify. pose proof (lf_event (fun a b : Server13 => pot a = pot b) (preorder_eq pot) ev cap (xs_certs c) (set_xs_events l c)) as K.
      destruct (event12_output ev cap (xs_certs c) (set_xs_events l c)) as [[| |] c2]; cbn [snd ret] in *;
        rewrite pot_events in K; lia.
  - unfold no_output. unfold bind at 1. rewrite tick_draws. unfold bind at 1.
    assert (P0 : pot (draw_random13s E (set_xs_now now c)) = pot c).
    { unfold draw_random13s. destruct (xs_random (set_xs_now now c)); [apply pot_now|].
      unfold yeng, zoom, rand_bytes13, draw13, bind, ret, modify. cbn [snd].
      rewrite pot_random, pot_eng, pot_now. reflexivity. }
    destruct (yeng (eng13_handle_timeout E now) (draw_random13s E (set_xs_now now c))) as [r c1] eqn:H1.
    assert (P1 : pot c1 = pot c).
    { rewrite <- P0. unfold yeng, zoom in H1. destruct (eng13_handle_timeout E now _). injection H1 as <- <-. apply pot_eng. }
    destruct r as [[]|e|m].
    + pose proof (pot_moves_s 40 c1) as K. unfold y_make_progress, public.
      destruct (y_progress E 40 c1) as [[[]|[]|] c2]; cbn [snd] in *; unfold ret; cbn [snd]; lia.
    + change (count f []) with 0. cbn [snd]; lia.
    + change (count f []) with 0. cbn [snd]. lia.
  - change (count f []) with 0.
    assert (G : pres (fun a b => pot a = pot b) (no_output (server13_send E d))).
    { unfold no_output, server13_send. presauto (@preorder_eq Server13 N pot) ltac:(first
        [ apply pres_modify; intro; symmetry; apply pot_queued
        | intro; unfold yeng, zoom; match goal with |- context [?m (xs_eng ?s)] => destruct (m (xs_eng s)) end; symmetry; apply pot_eng]). }
    rewrite <- (G c). lia.
  - change (count f []) with 0.
    assert (G : pres (fun a b => pot a = pot b) (no_output (server13_close E))).
    { unfold no_output, server13_close. presauto (@preorder_eq Server13 N pot) ltac:(first
        [ apply pres_modify; intro; symmetry; apply pot_state
        | intro; unfold yeng, zoom; match goal with |- context [?m (xs_eng ?s)] => destruct (m (xs_eng s)) end; symmetry; apply pot_eng]). }
    rewrite <- (G c). lia.
Qed.

Lemma pot_trace_s cs : forall c,
  count f (y_trace E cs c) + pot c <= pot (fold_left (fun c k => snd (server13_call E k c)) cs c).
Proof using All.
  induction cs as [|k cs IH]; intro c; [change (0 + pot c <= pot c); lia|]. cbn [y_trace fold_left]. rewrite count_app.
  pose proof (pot_call_s k c). specialize (IH (snd (server13_call E k c))). lia.
Qed.
End ServerCount.
