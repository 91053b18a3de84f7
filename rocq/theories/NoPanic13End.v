(** A DTLS 1.3 endpoint with an established connection does not panic: client and server. *)
From Coq Require Import String.
Close Scope string_scope.
From Verif Require Import Prelude PreludeFacts Types Codec Codec12 Codec13 Record12 Record13 Monad MonadFacts Timer Env Config Aead Prf AuxProofs Engine12 Client12
  Engine13 Client13 Server13 Context12 History12 History12Facts History13 Frame13 Lift13 Send13Proofs Rx13Proofs Index13 Fin13 Est13 Loops Garbage13 PropGarbage13 NoPanic13.

Section End.
Variable E : Env.
Hypothesis PV : provider13_ok E.
Hypothesis HM : hmac_ok E.
Hypothesis BS : bsearch_ok E.

Ltac npx_leaf := first [solve [apply np_key_update; assumption] | solve [apply np_cipher; assumption] | solve [apply np_update_recv; assumption]
  | solve [apply np_send_ack; assumption] | solve [apply np_advance; assumption] | solve [apply np_take; assumption] | solve [apply np_cancel; assumption]
  | solve [apply np_rand; assumption] | solve [apply np_timeout; assumption] | solve [apply np_parse; assumption]].
Ltac npxauto ge set := repeat (lazymatch goal with
  | |- npx _ _ (bind get _) => apply npx_get; intros ? ?
  | |- npx _ _ (bind (zoom _ _ (next_handshake13_no_transcript MT_KeyUpdate)) _) =>
    apply (npx_next E ge set); [reflexivity|]; let m := fresh "m" in let B := fresh "B" in intros [m|] B; [destruct B as [? B]; rewrite B; clear B|]
  | |- npx _ _ (bind _ _) => apply npx_bind; [|intro]
  | |- npx _ _ (ret _) => apply npx_ret
  | |- npx _ _ (fail _) => apply npx_fail
  | |- npx _ _ (public _) => apply npx_public
  | |- npx _ _ (when _ _) => apply npx_when
  | |- npx _ _ (iterM _ _) => apply npx_iter; intro
  | |- npx _ _ (zoom _ _ _) => apply (npx_zoom E ge set); [reflexivity|npx_leaf]
  | |- npx _ _ (modify _) => apply npx_modify; reflexivity
  | |- npx _ _ (match ?x with _ => _ end) => destruct x eqn:?
  end).

Lemma npx_x_step st : fin_x st = true -> npx E xc_eng (x_step E st).
Proof.
  destruct st; try discriminate; intros _; cbn [x_step]; unfold x_await_application_data, x_half_closed_local, xeng; npxauto xc_eng set_xc_eng.
Qed.
Lemma npx_y_step st : fin_y st = true -> npx E xs_eng (y_step E st).
Proof.
  destruct st; try discriminate; intros _; cbn [y_step]; unfold y_await_application_data, y_half_closed_local, yeng; npxauto xs_eng set_xs_eng.
Qed.

Lemma loop_x c : fin_x (xc_state c) = true -> calm E (xc_eng c) -> wp (x_make_progress E) (fun r c' => calm E (xc_eng c') /\ ~ is_panic r) c.
Proof.
  intros F C. unfold wp.
  assert (B : forall s, fin_x (xc_state s) = true -> calm E (xc_eng s) ->
    wp (round13c E) (fun r s' => (calm E (xc_eng s') /\ ~ is_panic r) /\ (r = Ok false -> fin_x (xc_state s') = true)) s).
  { intros s Fs Cs. unfold round13c. apply wp_bind, wp_get, wp_bind. pose proof (npx_x_step _ Fs s Cs) as N. pose proof (fin_x_stays E _ Fs s) as St.
    unfold wp in *. destruct (x_step E (xc_state s) s) as [[st|x|n] s1]; cbn [fst] in *; [|split; [exact N|discriminate]..].
    destruct (cstate13_eqb (xc_state s) st); cbn; [split; [exact N|discriminate]|]. split; [split; [apply N|intros []]|intros _; exact St]. }
  pose proof (npx_repeats E xc_eng (fun c => fin_x (xc_state c) = true) (round13c E) B _ _ (ends13c E c) F C) as L.
  destruct (x_make_progress E c); exact L.
Qed.
Lemma loop_y c : fin_y (xs_state c) = true -> calm E (xs_eng c) -> wp (y_make_progress E) (fun r c' => calm E (xs_eng c') /\ ~ is_panic r) c.
Proof.
  intros F C. unfold wp.
  assert (B : forall s, fin_y (xs_state s) = true -> calm E (xs_eng s) ->
    wp (round13s E) (fun r s' => (calm E (xs_eng s') /\ ~ is_panic r) /\ (r = Ok false -> fin_y (xs_state s') = true)) s).
  { intros s Fs Cs. unfold round13s. apply wp_bind, wp_get, wp_bind. pose proof (npx_y_step _ Fs s Cs) as N. pose proof (fin_y_stays E _ Fs s) as St.
    unfold wp in *. destruct (y_step E (xs_state s) s) as [[st|x|n] s1]; cbn [fst] in *; [|split; [exact N|discriminate]..].
    destruct (sstate13_eqb (xs_state s) st); cbn; [split; [exact N|discriminate]|]. split; [split; [apply N|intros []]|intros _; exact St]. }
  pose proof (npx_repeats E xs_eng (fun c => fin_y (xs_state c) = true) (round13s E) B _ _ (ends13s E c) F C) as L.
  destruct (y_make_progress E c); exact L.
Qed.

Lemma public_wp {S} (m : M S unit) (P : S -> Prop) s : wp m (fun r s' => P s' /\ ~ is_panic r) s -> wp (public m) (fun r s' => P s' /\ ~ is_panic r) s.
Proof. unfold wp, public. destruct (m s) as [[a|x|n] s1]; try (intro H; exact H). destruct x; cbn; tauto. Qed.

Definition quiet_x (c : Client13) : Prop := fin_x (xc_state c) = true /\ calm E (xc_eng c).
Definition quiet_y (c : Server13) : Prop := fin_y (xs_state c) = true /\ calm E (xs_eng c).
(** The engine's operations do not touch the state. *)
Lemma xeng_quiet {A B} (m : M Eng13 A) (k : A -> XM B) c : np E m -> quiet_x c -> (forall a c', quiet_x c' -> wp (k a) (fun r _ => ~ is_panic r) c') ->
  wp (bind (xeng m) k) (fun r _ => ~ is_panic r) c.
Proof.
  intros M [Q1 Q2] K. unfold xeng. apply wp_bind, wp_zoom. eapply wp_mono; [exact (M _ Q2)|]. intros [a|x|n] e [C N]; [|intros []|exact N].
  apply K. split; [exact Q1|exact C].
Qed.
Lemma yeng_quiet {A B} (m : M Eng13 A) (k : A -> YM B) c : np E m -> quiet_y c -> (forall a c', quiet_y c' -> wp (k a) (fun r _ => ~ is_panic r) c') ->
  wp (bind (yeng m) k) (fun r _ => ~ is_panic r) c.
Proof.
  intros M [Q1 Q2] K. unfold yeng. apply wp_bind, wp_zoom. eapply wp_mono; [exact (M _ Q2)|]. intros [a|x|n] e [C N]; [|intros []|exact N].
  apply K. split; [exact Q1|exact C].
Qed.
Lemma public_np {S} (m : M S unit) s : wp m (fun r _ => ~ is_panic r) s -> wp (public m) (fun r _ => ~ is_panic r) s.
Proof. unfold wp, public. destruct (m s) as [[a|x|n] s1]; try (intro H; exact H). destruct x; cbn; tauto. Qed.
Lemma loop_x_np c : quiet_x c -> wp (x_make_progress E) (fun r _ => ~ is_panic r) c.
Proof. intros [F C]. eapply wp_mono; [exact (loop_x c F C)|]. intros r s [_ H]. exact H. Qed.
Lemma loop_y_np c : quiet_y c -> wp (y_make_progress E) (fun r _ => ~ is_panic r) c.
Proof. intros [F C]. eapply wp_mono; [exact (loop_y c F C)|]. intros r s [_ H]. exact H. Qed.
Lemma last_np {S A} (ge : S -> Eng13) (m : M S A) s : npx E ge m -> calm E (ge s) -> wp m (fun r _ => ~ is_panic r) s.
Proof. intros N C. eapply wp_mono; [exact (N s C)|]. intros r s1 [_ H]. exact H. Qed.

Lemma no_output_np {S} (m : M S unit) s : wp m (fun r _ => ~ is_panic r) s -> wp (no_output m) (fun r _ => ~ is_panic r) s.
Proof. intro H. unfold no_output. apply wp_bind. eapply wp_mono; [exact H|]. intros [a|x|n] s1 N; [intros []|intros []|exact N]. Qed.

Lemma client_call_np k c : quiet_x c -> match k with Poll _ => True | _ => wp (client13_call E k) (fun r _ => ~ is_panic r) c end.
Proof.
  intros Q. destruct k as [p|cap|now|d|]; [| exact I |..]; cbn [client13_call]; apply no_output_np.
  - unfold client13_handle_packet. apply public_np, xeng_quiet; [apply np_parse; assumption|exact Q|]. intros _ c' Q'. apply loop_x_np, Q'.
  - unfold client13_handle_timeout. apply wp_bind, wp_modify, wp_bind, wp_get.
    assert (Q0 : quiet_x (set_xc_now now c)) by exact Q. revert Q0. generalize (set_xc_now now c). intros c0 Q0.
    assert (T : forall c1, quiet_x c1 -> wp (xeng (eng13_handle_timeout E now) ;;; public (x_make_progress E)) (fun r _ => ~ is_panic r) c1).
    { intros c1 Q1. apply xeng_quiet; [apply np_timeout; assumption|exact Q1|]. intros _ c' Q'. apply public_np, loop_x_np, Q'. }
    destruct (xc_random c0); apply wp_bind; [apply wp_ret, T, Q0|].
    unfold xeng at 1. apply wp_bind, wp_zoom. unfold wp at 1, rand_bytes13, draw13, bind. cbn [fst snd]. apply wp_modify. apply T. exact Q0.
  - apply (last_np xc_eng); [|apply Q]. unfold client13_send, xeng. npxauto xc_eng set_xc_eng.
  - apply (last_np xc_eng); [|apply Q]. unfold client13_close, xeng. npxauto xc_eng set_xc_eng.
Qed.
Lemma server_call_np k c : quiet_y c -> match k with Poll _ => True | _ => wp (server13_call E k) (fun r _ => ~ is_panic r) c end.
Proof.
  intros Q. destruct k as [p|cap|now|d|]; [| exact I |..]; cbn [server13_call]; apply no_output_np.
  - unfold server13_handle_packet. apply wp_bind, wp_get.
    assert (A : sstate13_eqb (xs_state c) ST_AwaitClientHello = false) by (destruct Q as [Q _]; destruct (xs_state c); try discriminate Q; reflexivity).
    rewrite A, andb_false_r. apply public_np. unfold y_process. apply yeng_quiet; [apply np_parse; assumption|exact Q|]. intros _ c' Q'.
    apply wp_bind. eapply wp_mono; [exact (loop_y_np c' Q')|]. intros [u|x|n] c2 N; [|intros []|exact N].
    apply wp_bind, wp_get, wp_when; intro; [apply wp_modify|]; intros [].
  - unfold server13_handle_timeout. apply wp_bind, wp_modify, wp_bind, wp_get.
    assert (Q0 : quiet_y (set_xs_now now c)) by exact Q. revert Q0. generalize (set_xs_now now c). intros c0 Q0.
    assert (T : forall c1, quiet_y c1 -> wp (yeng (eng13_handle_timeout E now) ;;; public (y_make_progress E)) (fun r _ => ~ is_panic r) c1).
    { intros c1 Q1. apply yeng_quiet; [apply np_timeout; assumption|exact Q1|]. intros _ c' Q'. apply public_np, loop_y_np, Q'. }
    destruct (xs_random c0); apply wp_bind; [apply wp_ret, T, Q0|].
    unfold yeng at 1. apply wp_bind, wp_zoom. unfold wp at 1, rand_bytes13, draw13, bind. cbn [fst snd]. apply wp_modify. apply T. exact Q0.
  - apply (last_np xs_eng); [|apply Q]. unfold server13_send, yeng. npxauto xs_eng set_xs_eng.
  - apply (last_np xs_eng); [|apply Q]. unfold server13_close, yeng. npxauto xs_eng set_xs_eng.
Qed.
End End.

(** src/lib.rs: a call other than [poll_output] on an endpoint that reported [Connected] *)
Definition is_poll (k : Call) : bool := match k with Poll _ => true | _ => false end.
Lemma connected_np E cfg cert key h s k : provider13_ok E -> hmac_ok E -> bsearch_ok E ->
  reach13 E cfg cert key h s -> In OConnected (outputs h) -> is_poll k = false -> ~ panicked (fst (end13_call E k s)).
Proof.
  intros PV HM BS R O P.
  assert (F : fin13 s = true) by (eapply connected_up13; [exact R|left; exact O]).
  assert (C : calm E (end13_eng s)) by (split; [eapply connected_suite; eauto|split; [eapply reach_roomy; [intros cs i Hcs; apply (PV cs i Hcs)|exact R]|eapply reach_filled; eauto]]).
  destruct s as [c|c]; cbn [end13_call fin13 end13_eng] in *.
  - pose proof (client_call_np E PV HM BS k c (conj F C)) as W. destruct k; try discriminate P; unfold wp in W;
      destruct (client13_call E _ c) as [r c1]; cbn [fst]; destruct r; cbn in *; tauto.
  - pose proof (server_call_np E PV HM BS k c (conj F C)) as W. destruct k; try discriminate P; unfold wp in W;
      destruct (server13_call E _ c) as [r c1]; cbn [fst]; destruct r; cbn in *; tauto.
Qed.
