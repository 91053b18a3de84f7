(** Invariants of a DTLS 1.3 endpoint that mention its outputs so far. *)
From Verif Require Import Prelude PreludeFacts Types Codec Codec12 Codec13 Record12 Record13 Monad MonadFacts Timer Env Config Engine12 Client12 Engine13 Client13
  Server13 History12 History12Facts History13 Frame13 Lift13 Trace13 Trace13Proofs.

Lemma outputs_snoc h c r : outputs (h ++ [(c, r)]) = outputs h ++ match r with Ok (Some o) => [o] | _ => [] end.
Proof. unfold outputs. rewrite flat_map_app. cbn [flat_map snd]. rewrite app_nil_r. reflexivity. Qed.

(** A step of the state machine leaves the state field alone: [make_progress] stores
    the state it returns. *)
Lemma x_step_state E st : pres (fun a b => xc_state a = xc_state b) (x_step E st).
Proof.
  pose proof (@preorder_eq Client13 CState13 xc_state) as PO.
  assert (P : forall A (m : M Eng13 A), pres (fun a b => xc_state a = xc_state b) (xeng m)).
  { intros A m c. unfold xeng, zoom. destruct (m (xc_eng c)). reflexivity. }
  assert (P1 : forall es, pres (fun a b => xc_state a = xc_state b) (hrr_extensions es)).
  { induction es as [|[t d] es IH]; cbn [hrr_extensions]; presauto PO ltac:(first [exact IH|apply P|apply pres_modify; reflexivity]). }
  assert (P2 : forall es, pres (fun a b => xc_state a = xc_state b) (ee13_extensions es)).
  { induction es as [|[t d] es IH]; cbn [ee13_extensions]; presauto PO ltac:(first [exact IH|apply P|apply pres_modify; reflexivity]). }
  destruct st; cbn [x_step];
    unfold x_send_client_hello, x_await_server_hello, x_hello_retry, x_server_hello,
      x_await_encrypted_extensions, x_await_certificate_request, x_await_certificate,
      x_await_certificate_verify, x_await_finished, x_send_certificate, x_send_certificate_verify,
      x_send_finished, x_await_application_data, x_half_closed_local;
    presauto PO ltac:(first [apply P|apply P1|apply P2|apply pres_modify; reflexivity]).
Qed.
Lemma y_step_state E st : pres (fun a b => xs_state a = xs_state b) (y_step E st).
Proof.
  pose proof (@preorder_eq Server13 SState13 xs_state) as PO.
  assert (P : forall A (m : M Eng13 A), pres (fun a b => xs_state a = xs_state b) (yeng m)).
  { intros A m c. unfold yeng, zoom. destruct (m (xs_eng c)). reflexivity. }
  assert (P1 : forall a b c, pres (fun a b => xs_state a = xs_state b) (y_select E a b c)).
  { intros. unfold y_select, cookie13, y_retry, send_hello_retry, y_accept_hello.
    presauto PO ltac:(first [apply P|apply pres_modify; reflexivity]). }
  destruct st; cbn [y_step];
    unfold y_await_client_hello, y_send_server_hello, y_send_encrypted_extensions,
      y_send_certificate_request, y_send_certificate, y_send_certificate_verify, y_send_finished,
      y_await_certificate, y_await_certificate_verify, y_await_finished, y_await_application_data,
      y_half_closed_local;
    presauto PO ltac:(first [apply P|apply P1|apply pres_modify; reflexivity]).
Qed.

Definition out_of (r : res Output) : list Output := match r with Ok o => [o] | _ => [] end.

Section ClientOut.
Variable E : Env.
Variable J : list Output -> Client13 -> Prop.
(** Where a failed step may leave the client outside the invariant. *)
Variable B : Client13 -> Prop.
Hypothesis A_parse : forall p os c, J os c -> J os (snd (xeng (eng13_parse_packet E p) c)).
Hypothesis A_tick : forall now os c, J os c -> J os (draw_random13 E (set_xc_now now c)).
Hypothesis A_timeout : forall now os c, J os c -> J os (snd (xeng (eng13_handle_timeout E now) c)).
Hypothesis A_step : forall os c r c', J os c -> x_step E (xc_state c) c = (r, c') ->
  match r with Ok st => J os (set_xc_state st c') | _ => J os c' \/ B c' end.
Hypothesis A_poll : forall cap os c r c', J os c -> client13_poll_output cap c = (r, c') -> J (os ++ out_of r) c'.
Hypothesis A_send : forall d os c, J os c -> J os (snd (client13_send E d c)).
Hypothesis A_close : forall os c, J os c -> J os (snd (client13_close E c)).

Lemma ao_progress os n : forall c, J os c -> J os (snd (x_progress E n c)) \/ B (snd (x_progress E n c)).
Proof using A_step.
  induction n as [|n IH]; intros c H; [left; exact H|]. cbn [x_progress]. unfold bind, get.
  destruct (x_step E (xc_state c) c) as [r c'] eqn:Hs. pose proof (A_step os _ _ _ H Hs) as K.
  pose proof (x_step_state E (xc_state c) c) as Kst. rewrite Hs in Kst. cbn [snd] in Kst.
  destruct r as [st|e|m]; cbn [snd]; [|exact K..].
  destruct (cstate13_eqb (xc_state c) st) eqn:He.
  - left. cbn [ret snd]. assert (st = xc_state c') as -> by (rewrite <- Kst; destruct (xc_state c), st; try discriminate; reflexivity).
    destruct c'; exact K.
  - unfold modify. apply IH, K.
Qed.
Lemma ao_call_from k os c r c' : J os c -> (forall p, k = Packet p -> J os (snd (xeng (eng13_parse_packet E p) c))) ->
  client13_call E k c = (r, c') ->
  J (os ++ match r with Ok (Some o) => [o] | _ => [] end) c' \/ B c'.
Proof using A_tick A_timeout A_step A_poll A_send A_close.
  intros H A0 Hc. destruct k as [p|cap|now|d|]; cbn [client13_call] in Hc.
  - unfold no_output, client13_handle_packet, public, bind in Hc.
    pose proof (A0 p eq_refl) as H1.
    destruct (xeng (eng13_parse_packet E p) c) as [[[]|e|m] c1]; cbn [snd] in H1.
    + pose proof (ao_progress os 40 c1 H1) as K. unfold x_make_progress in Hc.
      destruct (x_progress E 40 c1) as [[[]|e|m] c2]; cbn [snd] in K; [| destruct e | ];
        injection Hc as <- <-; rewrite app_nil_r; exact K.
    + destruct e; injection Hc as <- <-; rewrite app_nil_r; left; exact H1.
    + injection Hc as <- <-; rewrite app_nil_r; left; exact H1.
  - unfold some_output, bind in Hc.
    destruct (client13_poll_output cap c) as [ro c1] eqn:Hp. pose proof (A_poll cap os c _ _ H Hp) as K.
    destruct ro as [o|e|m]; injection Hc as <- <-; left; exact K.
  - unfold no_output in Hc. unfold bind at 1 in Hc. rewrite tick_draw in Hc. unfold bind at 1 in Hc.
    pose proof (A_timeout now os _ (A_tick now os c H)) as H1.
    destruct (xeng (eng13_handle_timeout E now) (draw_random13 E (set_xc_now now c))) as [[[]|e|m] c1]; cbn [snd] in H1.
    + pose proof (ao_progress os 40 c1 H1) as K. unfold x_make_progress, public in Hc.
      destruct (x_progress E 40 c1) as [[[]|e|m] c2]; cbn [snd] in K; [| destruct e | ];
        injection Hc as <- <-; rewrite app_nil_r; exact K.
    + injection Hc as <- <-; rewrite app_nil_r; left; exact H1.
    + injection Hc as <- <-; rewrite app_nil_r; left; exact H1.
  - unfold no_output, bind in Hc. pose proof (A_send d os c H) as K.
    destruct (client13_send E d c) as [[[]|e|m] c1]; injection Hc as <- <-; rewrite app_nil_r; left; exact K.
  - unfold no_output, bind in Hc. pose proof (A_close os c H) as K.
    destruct (client13_close E c) as [[[]|e|m] c1]; injection Hc as <- <-; rewrite app_nil_r; left; exact K.
Qed.
Lemma ao_call k os c r c' : J os c -> client13_call E k c = (r, c') ->
  J (os ++ match r with Ok (Some o) => [o] | _ => [] end) c' \/ B c'.
Proof using All. intros H. apply ao_call_from; [exact H|]. intros p _. apply A_parse, H. Qed.
Lemma ao_history_if c0 h s : J [] c0 ->
  (forall h1 h2 c, h = h1 ++ h2 -> history13 E (XC c0) h1 (XC c) -> ~ B c) ->
  history13 E (XC c0) h s -> exists c, s = XC c /\ J (outputs h) c.
Proof using All.
  intros H0 HB H. revert HB. induction H as [|h s k r s' H IH NP C]; intros HB; [exists c0; auto|].
  destruct IH as (c & -> & IH).
  { intros h1 h2 c -> K. apply (HB h1 (h2 ++ [(k, r)])); [rewrite app_assoc; reflexivity|exact K]. }
  pose proof C as C'. cbn [end13_call] in C.
  destruct (client13_call E k c) as [r1 c1] eqn:Hk. injection C as <- <-. exists c1. split; [reflexivity|].
  rewrite outputs_snoc. destruct (ao_call _ _ _ _ _ IH Hk) as [K|K]; [exact K|].
  exfalso. apply (HB (h ++ [(k, r1)]) [] c1); [symmetry; apply app_nil_r| |exact K].
  eapply history13_snoc; eassumption.
Qed.
End ClientOut.

Section ServerOut.
Variable E : Env.
Variable J : list Output -> Server13 -> Prop.
Hypothesis A_parse : forall p os c, J os c -> J os (snd (yeng (eng13_parse_packet E p) c)).
Hypothesis A_tick : forall now os c, J os c -> J os (draw_random13s E (set_xs_now now c)).
Hypothesis A_timeout : forall now os c, J os c -> J os (snd (yeng (eng13_handle_timeout E now) c)).
Hypothesis A_auto : forall v os c, J os c -> J os (set_xs_auto v c).
Hypothesis A_hellos : forall v os c, J os c -> J os (set_xs_hellos v c).
Hypothesis A_step : forall os c r c', J os c -> y_step E (xs_state c) c = (r, c') ->
  match r with Ok st => J os (set_xs_state st c') | _ => J os c' end.
Hypothesis A_poll : forall cap os c r c', J os c -> server13_poll_output cap c = (r, c') -> J (os ++ out_of r) c'.
Hypothesis A_send : forall d os c, J os c -> J os (snd (server13_send E d c)).
Hypothesis A_close : forall os c, J os c -> J os (snd (server13_close E c)).

Lemma bo_progress os n : forall c, J os c -> J os (snd (y_progress E n c)).
Proof using A_step.
  induction n as [|n IH]; intros c H; [exact H|]. cbn [y_progress]. unfold bind, get.
  destruct (y_step E (xs_state c) c) as [r c'] eqn:Hs. pose proof (A_step os _ _ _ H Hs) as K.
  pose proof (y_step_state E (xs_state c) c) as Kst. rewrite Hs in Kst. cbn [snd] in Kst.
  destruct r as [st|e|m]; cbn [snd]; [|exact K..].
  destruct (sstate13_eqb (xs_state c) st) eqn:He.
  - cbn [ret snd]. assert (st = xs_state c') as -> by (rewrite <- Kst; destruct (xs_state c), st; try discriminate; reflexivity).
    destruct c'; exact K.
  - unfold modify. apply IH, K.
Qed.
Lemma bo_process os p c : J os (snd (yeng (eng13_parse_packet E p) c)) -> J os (snd (public (y_process E p) c)).
Proof using A_step A_auto A_hellos.
  intros H1. unfold public, y_process, bind.
  destruct (yeng (eng13_parse_packet E p) c) as [[[]|e|m] c1]; cbn [snd] in H1; [|destruct e; exact H1|exact H1].
  pose proof (bo_progress os 40 c1 H1) as K. unfold y_make_progress.
  destruct (y_progress E 40 c1) as [[[]|e|m] c2]; cbn [snd] in K; [|destruct e; exact K|exact K].
  unfold get, when, modify. destruct (_ && _); cbn [snd ret]; [apply A_auto, A_hellos, K|exact K].
Qed.
(** The state the datagram is parsed in: the auto-sensing server first keeps it. *)
Definition retained13 (p : bytes) (c : Server13) : Server13 :=
  if xs_auto c && sstate13_eqb (xs_state c) ST_AwaitClientHello then set_xs_hellos (xs_hellos c ++ [p]) c else c.
Lemma bo_call_from k os c r c' : J os c -> (forall p, k = Packet p -> J os (snd (yeng (eng13_parse_packet E p) (retained13 p c)))) ->
  server13_call E k c = (r, c') ->
  J (os ++ match r with Ok (Some o) => [o] | _ => [] end) c'.
Proof using A_tick A_timeout A_auto A_hellos A_step A_poll A_send A_close.
  intros H A0 Hc. destruct k as [p|cap|now|d|]; cbn [server13_call] in Hc.
  - assert (G : J os (snd (no_output (server13_handle_packet E p) c))).
    { specialize (A0 p eq_refl). unfold retained13 in A0. unfold no_output, server13_handle_packet, bind, get, modify.
      destruct (xs_auto c && sstate13_eqb (xs_state c) ST_AwaitClientHello).
      - destruct (MAX_RETAINED <=? len (xs_hellos c)); [exact H|].
        pose proof (bo_process os p _ A0) as K.
        destruct (public (y_process E p) _) as [[[]|e|m] c2]; exact K.
      - pose proof (bo_process os p c A0) as K. destruct (public (y_process E p) c) as [[[]|e|m] c2]; exact K. }
    rewrite Hc in G. cbn [snd] in G.
    assert (Hr : match r with Ok (Some o) => [o] | _ => @nil Output end = []).
    { unfold no_output, bind in Hc. destruct (server13_handle_packet E p c) as [[[]|e|m] c2]; injection Hc as <- <-; reflexivity. }
    rewrite Hr, app_nil_r. exact G.
  - unfold some_output, bind in Hc.
    destruct (server13_poll_output cap c) as [ro c1] eqn:Hp. pose proof (A_poll cap os c _ _ H Hp) as K.
    destruct ro as [o|e|m]; injection Hc as <- <-; exact K.
  - unfold no_output in Hc. unfold bind at 1 in Hc. rewrite tick_draws in Hc. unfold bind at 1 in Hc.
    pose proof (A_timeout now os _ (A_tick now os c H)) as H1.
    destruct (yeng (eng13_handle_timeout E now) (draw_random13s E (set_xs_now now c))) as [[[]|e|m] c1]; cbn [snd] in H1.
    + pose proof (bo_progress os 40 c1 H1) as K. unfold y_make_progress, public in Hc.
      destruct (y_progress E 40 c1) as [[[]|e|m] c2]; cbn [snd] in K; [| destruct e | ];
        injection Hc as <- <-; rewrite app_nil_r; exact K.
    + injection Hc as <- <-; rewrite app_nil_r; exact H1.
    + injection Hc as <- <-; rewrite app_nil_r; exact H1.
  - unfold no_output, bind in Hc. pose proof (A_send d os c H) as K.
    destruct (server13_send E d c) as [[[]|e|m] c1]; injection Hc as <- <-; rewrite app_nil_r; exact K.
  - unfold no_output, bind in Hc. pose proof (A_close os c H) as K.
    destruct (server13_close E c) as [[[]|e|m] c1]; injection Hc as <- <-; rewrite app_nil_r; exact K.
Qed.
Lemma bo_call k os c r c' : J os c -> server13_call E k c = (r, c') ->
  J (os ++ match r with Ok (Some o) => [o] | _ => [] end) c'.
Proof using All.
  intros H. apply bo_call_from; [exact H|]. intros p _. apply A_parse. unfold retained13. destruct (_ && _); [apply A_hellos|]; exact H.
Qed.
Lemma bo_history c0 h s : J [] c0 -> history13 E (XS c0) h s -> exists c, s = XS c /\ J (outputs h) c.
Proof using All.
  intros H0. induction 1 as [|h s k r s' H IH NP C]; [exists c0; auto|].
  destruct IH as (c & -> & IH). cbn [end13_call] in C.
  destruct (server13_call E k c) as [r1 c1] eqn:Hk. injection C as <- <-. exists c1. split; [reflexivity|].
  rewrite outputs_snoc. eapply bo_call; eauto.
Qed.
End ServerOut.

(** What polling does to the engine. *)
Definition polled13 (e : Eng13) (l : list bytes) v d b : Eng13 := set_g_cn_rep b (set_g_ackdl d (set_g_rx v (set_g_tx l e))).
Lemma maybe_ack_set now s : exists d, maybe_schedule_ack now s = set_g_ackdl d s.
Proof.
  unfold maybe_schedule_ack. destruct (negb (handshake_in_progress s)); [eexists; reflexivity|].
  destruct (is_some _); [exists (g_ackdl s); destruct s; reflexivity|].
  destruct (negb (ack_help_needed s)); [exists (g_ackdl s); destruct s; reflexivity|]. eexists; reflexivity.
Qed.
Lemma poll_shape cap now e :
  wp (eng13_poll_output cap now) (fun r e' => exists l v d b, e' = polled13 e l v d b /\
    match r with Ok (OPacket p) => g_tx e = p :: l | _ => l = g_tx e end) e.
Proof.
  assert (S0 : forall v, set_g_rx v e = polled13 e (g_tx e) v (g_ackdl e) (g_cn_rep e)) by (intro; destruct e; reflexivity).
  unfold eng13_poll_output, poll_app_data13. apply wp_bind, wp_modify, wp_bind, wp_bind, wp_get.
  assert (K : wp (modify (maybe_schedule_ack now) ;;;
    (let! p := poll_packet_tx13 cap in
    match p with
    | Some o => ret o
    | None =>
      let! s := get in
      if is_some (g_cn s) && negb (g_cn_rep s)
      then modify (set_g_cn_rep true) ;;; ret OCloseNotify
      else ret (OTimeout (poll_timeout13 s now))
    end)) (fun r e' => exists l v d b, e' = polled13 e l v d b /\
      match r with Ok (OPacket p) => g_tx e = p :: l | _ => l = g_tx e end) (set_g_rx (purge_handled (g_rx e)) e)).
  { apply wp_bind, wp_modify. destruct (maybe_ack_set now (set_g_rx (purge_handled (g_rx e)) e)) as [d ->].
    unfold poll_packet_tx13. apply wp_bind, wp_bind, wp_get.
    change (g_tx (set_g_ackdl d (set_g_rx (purge_handled (g_rx e)) e))) with (g_tx e).
    destruct (g_tx e) as [|p l] eqn:Ht.
    - apply wp_ret, wp_bind, wp_get.
      destruct (_ && _); [apply wp_bind, wp_modify, wp_ret|apply wp_ret].
      + exists (g_tx e), (purge_handled (g_rx e)), d, true. split; [destruct e; reflexivity|congruence].
      + exists (g_tx e), (purge_handled (g_rx e)), d, (g_cn_rep e). split; [destruct e; reflexivity|congruence].
    - destruct (cap <? len p); [apply wp_ret, wp_ret|apply wp_bind, wp_modify, wp_ret, wp_ret].
      + exists (g_tx e), (purge_handled (g_rx e)), d, (g_cn_rep e). split; [destruct e; reflexivity|congruence].
      + exists l, (purge_handled (g_rx e)), d, (g_cn_rep e). split; [destruct e; reflexivity|reflexivity]. }
  destruct (negb (g_release _)); [apply wp_ret; exact K|].
  destruct (find _ _) as [x|]; [|apply wp_ret; exact K].
  destruct (cap <? len (r_frag x)); [apply wp_ret, wp_ret|].
  - exists (g_tx e), (purge_handled (g_rx e)), (g_ackdl e), (g_cn_rep e). split; [apply S0|reflexivity].
  - destruct (r_hs x); [apply wp_bind, wp_modify, wp_ret, wp_ret|apply wp_panic].
    + eexists (g_tx e), _, (g_ackdl e), (g_cn_rep e). split; [|reflexivity].
      instantiate (1 := mark_first unhandled_app (purge_handled (g_rx e))). destruct e; reflexivity.
    + exists (g_tx e), (purge_handled (g_rx e)), (g_ackdl e), (g_cn_rep e). split; [apply S0|reflexivity].
Qed.

(** The datagrams among outputs. *)
Definition datagrams (os : list Output) : list bytes :=
  flat_map (fun o => match o with OPacket p => [p] | _ => [] end) os.
Lemma datagrams_app a b : datagrams (a ++ b) = datagrams a ++ datagrams b.
Proof. apply flat_map_app. Qed.
Lemma event_no_packet ev cap certs S (s : S) r s' : event12_output ev cap certs s = (r, s') ->
  s' = s /\ datagrams (out_of r) = [].
Proof.
  destruct ev; cbn [event12_output]; unfold bind, ret, panic, get; repeat match goal with |- context [match ?x with _ => _ end] => destruct x end;
    intros [= <- <-]; auto.
Qed.
