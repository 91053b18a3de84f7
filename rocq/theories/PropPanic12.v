(** C52: what makes a connected DTLS 1.2 endpoint panic. *)
From Verif Require Import Prelude PreludeFacts Types Codec Codec12 Record12 Monad MonadFacts Timer Env Config Aead Prf Context12 Engine12 Client12 Server12
  History12 History12Facts Spec Keys12 Rx12Ledger Rx12Facts Rx12Proofs Ledger12 ClientInv12 ClientStep12 ServerInv12 ServerStep12 Events12 Lift12 Step12 Done12 Toy Conn12 Rx12Runs PropRx12 NoPanic12.

Definition fin_c (st : CState12) : bool := match st with CS_AwaitApplicationData | CS_Closed => true | _ => false end.
Definition fin_s (st : SState12) : bool := match st with SS_AwaitApplicationData | SS_Closed => true | _ => false end.
Lemma released_fin_c E c : inv_client E c -> en_release (cl_eng c) = true -> fin_c (cl_state c) = true.
Proof. intros [[T _] F] R. unfold timers_c, unfinished in T. destruct (cl_state c); try (destruct T as (_ & _ & T); congruence); reflexivity. Qed.
Lemma released_fin_s E c : inv_server E c -> en_release (sv_eng c) = true -> fin_s (sv_state c) = true.
Proof. intros [[T _] F] R. unfold timers_s, unfinished in T. destruct (sv_state c); try (destruct T as (_ & _ & T); congruence); reflexivity. Qed.

Definition rets {S A} (P : A -> Prop) (m : M S A) : Prop := forall s, match fst (m s) with Ok a => P a | _ => True end.
Lemma rets_bind {S A B} P (m : M S A) (k : A -> M S B) : (forall a, rets P (k a)) -> rets P (bind m k).
Proof. intros H s. unfold bind. destruct (m s) as [[a|x|n] s']; [apply H|exact I..]. Qed.
Lemma rets_c E : rets (fun st => fin_c st = true) (c_await_application_data E).
Proof. apply rets_bind; intro c. destruct (en_cn_recv _); apply rets_bind; intro; apply rets_bind; intro; intro s; reflexivity. Qed.
Lemma rets_s E : rets (fun st => fin_s st = true) (s_await_application_data E).
Proof. apply rets_bind; intro c. destruct (en_cn_recv _); apply rets_bind; intro; apply rets_bind; intro; intro s; reflexivity. Qed.

Section End.
Variable E : Env.
Hypothesis SOK : suites12_ok E.
Hypothesis RL : rand_ok E.
Variable X : N -> Prop.

Ltac npc G S := repeat (lazymatch goal with
  | |- np _ _ _ (bind get _) => apply np_get; intros ? ?
  | |- np _ _ _ (bind _ _) => apply np_bind; [|intro]
  | |- np _ _ _ (ret _) => apply np_ret
  | |- np _ _ _ (fail _) => apply np_fail
  | |- np _ _ _ (iterM _ _) => apply np_iter; intro
  | |- np _ _ _ (zoom _ _ (create_record _ _ _ _ _)) => apply (np_zoom E X G S); [reflexivity|apply np_record; assumption]
  | |- np _ _ _ (zoom _ _ discard_pending_writes) => apply (np_zoom E X G S); [reflexivity|apply np_modify; let H := fresh in intros ? H; exact H]
  | |- np _ _ _ (zoom _ _ (eng12_handle_timeout _ _)) => apply (np_zoom E X G S); [reflexivity|apply np_timeout; assumption]
  | |- np _ _ _ (zoom _ _ (random_with_time _ _)) => apply (np_zoom E X G S); [reflexivity|apply np_bind; [apply np_rand|intro; apply np_ret]]
  | |- np _ _ _ (modify _) => apply np_modify; let H := fresh in intros ? H; exact H
  | |- np _ _ _ (match ?x with _ => _ end) => destruct x eqn:?
  end).

Lemma np_c_app : np E X cl_eng (c_await_application_data E).
Proof. unfold c_await_application_data, ceng. npc cl_eng set_cl_eng. Qed.
Lemma np_s_app : np E X sv_eng (s_await_application_data E).
Proof. unfold s_await_application_data, seng. npc sv_eng set_sv_eng. Qed.

Lemma np_c_progress x : fin_c (cl_state x) = true -> able E (cl_eng x) ->
  wp (c_make_progress E) (fun r y => able E (cl_eng y) /\ panics_by X r) x.
Proof.
  assert (CL : forall n x, cl_state x = CS_Closed -> able E (cl_eng x) -> wp (c_progress E (S n)) (fun r y => able E (cl_eng y) /\ panics_by X r) x).
  { intros n y H A. cbn [c_progress]. apply wp_bind, wp_get. rewrite H. apply wp_bind. cbn [c_step]. apply wp_ret. exact (np_ret E X cl_eng tt y A). }
  intros F A. unfold c_make_progress. destruct (cl_state x) eqn:H; try discriminate F; [|apply CL; assumption].
  change 40%nat with (S (S 38)). generalize 38%nat. intro n. change (wp (c_progress E (S (S n)))) with (wp (let! c := get in let! st := c_step E (cl_state c) in if cstate12_eqb (cl_state c) st then ret tt else modify (set_cl_state st) ;;; c_progress E (S n))).
  apply wp_bind, wp_get. rewrite H. cbn [c_step]. apply wp_bind.
  pose proof (np_c_app x A) as N. pose proof (rets_c E x) as R. unfold wp in N |- *. destruct (c_await_application_data E x) as [[a|e|k] y]; cbn [fst snd] in *; [|exact N..].
  destruct N as [N _]. destruct (cstate12_eqb _ a) eqn:Q; [exact (np_ret E X cl_eng tt y N)|].
  apply wp_bind, wp_modify. apply CL; [destruct a; try discriminate R; [exfalso; revert Q; vm_compute; discriminate|reflexivity]|exact N].
Qed.
Lemma np_s_progress x : fin_s (sv_state x) = true -> able E (sv_eng x) ->
  wp (s_make_progress E) (fun r y => able E (sv_eng y) /\ panics_by X r) x.
Proof.
  assert (CL : forall n x, sv_state x = SS_Closed -> able E (sv_eng x) -> wp (s_progress E (S n)) (fun r y => able E (sv_eng y) /\ panics_by X r) x).
  { intros n y H A. cbn [s_progress]. apply wp_bind, wp_get. rewrite H. apply wp_bind. cbn [s_step]. apply wp_ret. exact (np_ret E X sv_eng tt y A). }
  intros F A. unfold s_make_progress. destruct (sv_state x) eqn:H; try discriminate F; [|apply CL; assumption].
  change 40%nat with (S (S 38)). generalize 38%nat. intro n. change (wp (s_progress E (S (S n)))) with (wp (let! c := get in let! st := s_step E (sv_state c) in if sstate12_eqb (sv_state c) st then ret tt else modify (set_sv_state st) ;;; s_progress E (S n))).
  apply wp_bind, wp_get. rewrite H. cbn [s_step]. apply wp_bind.
  pose proof (np_s_app x A) as N. pose proof (rets_s E x) as R. unfold wp in N |- *. destruct (s_await_application_data E x) as [[a|e|k] y]; cbn [fst snd] in *; [|exact N..].
  destruct N as [N _]. destruct (sstate12_eqb _ a) eqn:Q; [exact (np_ret E X sv_eng tt y N)|].
  apply wp_bind, wp_modify. apply CL; [destruct a; try discriminate R; [exfalso; revert Q; vm_compute; discriminate|reflexivity]|exact N].
Qed.

Definition good_c {A} (m : M Client12 A) : Prop := forall x, fin_c (cl_state x) = true -> able E (cl_eng x) -> wp m (fun r y => (able E (cl_eng y) /\ panics_by X r) /\ fin_c (cl_state y) = true) x.
Lemma good_c_eng {A} (m : M Eng12 A) : np E X (fun e => e) m -> good_c (ceng m).
Proof. intros H x F A'. specialize (H (cl_eng x) A'). unfold wp, ceng, zoom in *. destruct (m (cl_eng x)) as [r e]. cbn in *. split; [exact H|exact F]. Qed.
Lemma good_c_bind {A} (m : M Client12 A) (k : A -> M Client12 unit) : good_c m -> (forall a, forall x, fin_c (cl_state x) = true -> able E (cl_eng x) -> wp (k a) (fun r y => able E (cl_eng y) /\ panics_by X r) x) ->
  forall x, fin_c (cl_state x) = true -> able E (cl_eng x) -> wp (bind m k) (fun r y => able E (cl_eng y) /\ panics_by X r) x.
Proof. intros H K x F A'. apply wp_bind. wpuse (H x F A'). intros [a|e|n] y [N F']; [apply K; [exact F'|apply N]|split; [apply N|exact I]|exact N]. Qed.
Lemma good_c_public (m : M Client12 unit) : forall x, wp m (fun r y => able E (cl_eng y) /\ panics_by X r) x -> wp (public m) (fun r y => able E (cl_eng y) /\ panics_by X r) x.
Proof. intros x H. unfold wp, public in *. destruct (m x) as [[a|[]|n] s']; cbn in *; tauto. Qed.
Lemma client12_packet p : X 364 -> bytes_ok p -> forall x, fin_c (cl_state x) = true -> able E (cl_eng x) -> wp (client12_handle_packet E p) (fun r y => able E (cl_eng y) /\ panics_by X r) x.
Proof.
  intros X3 B x F A. apply good_c_public. apply good_c_bind; [apply good_c_eng, np_parse_packet; assumption| |exact F|exact A]. intros _. exact np_c_progress.
Qed.
Lemma client12_tick now : forall x, fin_c (cl_state x) = true -> able E (cl_eng x) -> wp (client12_handle_timeout E now) (fun r y => able E (cl_eng y) /\ panics_by X r) x.
Proof.
  unfold client12_handle_timeout. apply good_c_bind; [intros x F A; split; [split; [exact A|exact I]|exact F]|]. intros _ x F A. apply wp_bind, wp_get.
  generalize (cl_random x). intro o. cbv beta.
  revert x F A. apply good_c_bind.
  - destruct o; [intros y Fy Ay; split; [split; [exact Ay|exact I]|exact Fy]|]. intros y Fy Ay. apply wp_bind.
    wpuse (good_c_eng (random_with_time E now) ltac:(apply np_bind; [apply np_rand|intro; apply np_ret]) y Fy Ay). intros [a|e|n] z [N Fz]; [split; [split; [apply N|exact I]|exact Fz]|split; [split; [apply N|exact I]|exact Fz]|split; [exact N|exact Fz]].
  - intros _. apply good_c_bind; [apply good_c_eng, np_timeout; assumption|]. intros _ y Fy Ay. apply good_c_public, np_c_progress; assumption.
Qed.
Lemma client12_sends d : np E X cl_eng (client12_send E d).
Proof. unfold client12_send, ceng. npc cl_eng set_cl_eng. Qed.
Lemma client12_closes x : fin_c (cl_state x) = true -> able E (cl_eng x) -> wp (client12_close E) (fun r y => able E (cl_eng y) /\ panics_by X r) x.
Proof.
  intros F A. unfold client12_close. apply wp_bind, wp_get. destruct (cl_state x); try discriminate F; [|split; [exact A|exact I]].
  match goal with |- wp ?m _ _ => assert (N : np E X cl_eng m) by (unfold ceng; npc cl_eng set_cl_eng); exact (N x A) end.
Qed.

Definition good_s {A} (m : M Server12 A) : Prop := forall x, fin_s (sv_state x) = true -> able E (sv_eng x) -> wp m (fun r y => (able E (sv_eng y) /\ panics_by X r) /\ fin_s (sv_state y) = true) x.
Lemma good_s_eng {A} (m : M Eng12 A) : np E X (fun e => e) m -> good_s (seng m).
Proof. intros H x F A'. specialize (H (sv_eng x) A'). unfold wp, seng, zoom in *. destruct (m (sv_eng x)) as [r e]. cbn in *. split; [exact H|exact F]. Qed.
Lemma good_s_bind {A} (m : M Server12 A) (k : A -> M Server12 unit) : good_s m -> (forall a, forall x, fin_s (sv_state x) = true -> able E (sv_eng x) -> wp (k a) (fun r y => able E (sv_eng y) /\ panics_by X r) x) ->
  forall x, fin_s (sv_state x) = true -> able E (sv_eng x) -> wp (bind m k) (fun r y => able E (sv_eng y) /\ panics_by X r) x.
Proof. intros H K x F A'. apply wp_bind. wpuse (H x F A'). intros [a|e|n] y [N F']; [apply K; [exact F'|apply N]|split; [apply N|exact I]|exact N]. Qed.
Lemma good_s_public (m : M Server12 unit) : forall x, wp m (fun r y => able E (sv_eng y) /\ panics_by X r) x -> wp (public m) (fun r y => able E (sv_eng y) /\ panics_by X r) x.
Proof. intros x H. unfold wp, public in *. destruct (m x) as [[a|[]|n] s']; cbn in *; tauto. Qed.
Lemma server12_packet p : X 364 -> bytes_ok p -> forall x, fin_s (sv_state x) = true -> able E (sv_eng x) -> wp (server12_handle_packet E p) (fun r y => able E (sv_eng y) /\ panics_by X r) x.
Proof.
  intros X3 B x F A. apply good_s_public. apply good_s_bind; [apply good_s_eng, np_parse_packet; assumption| |exact F|exact A]. intros _. exact np_s_progress.
Qed.
Lemma server12_tick now : forall x, fin_s (sv_state x) = true -> able E (sv_eng x) -> wp (server12_handle_timeout E now) (fun r y => able E (sv_eng y) /\ panics_by X r) x.
Proof.
  unfold server12_handle_timeout. apply good_s_bind; [intros x F A; split; [split; [exact A|exact I]|exact F]|]. intros _ x F A. apply wp_bind, wp_get.
  generalize (sv_random x). intro o. cbv beta.
  revert x F A. apply good_s_bind.
  - destruct o; [intros y Fy Ay; split; [split; [exact Ay|exact I]|exact Fy]|]. intros y Fy Ay. apply wp_bind.
    wpuse (good_s_eng (random_with_time E now) ltac:(apply np_bind; [apply np_rand|intro; apply np_ret]) y Fy Ay). intros [a|e|n] z [N Fz]; [split; [split; [apply N|exact I]|exact Fz]|split; [split; [apply N|exact I]|exact Fz]|split; [exact N|exact Fz]].
  - intros _. apply good_s_bind; [apply good_s_eng, np_timeout; assumption|]. intros _ y Fy Ay. apply good_s_public, np_s_progress; assumption.
Qed.
Lemma server12_sends d : np E X sv_eng (server12_send E d).
Proof. unfold server12_send, seng. npc sv_eng set_sv_eng. Qed.
Lemma server12_closes x : fin_s (sv_state x) = true -> able E (sv_eng x) -> wp (server12_close E) (fun r y => able E (sv_eng y) /\ panics_by X r) x.
Proof.
  intros F A. unfold server12_close. apply wp_bind, wp_get. destruct (sv_state x); try discriminate F; [|split; [exact A|exact I]].
  match goal with |- wp ?m _ _ => assert (N : np E X sv_eng m) by (unfold seng; npc sv_eng set_sv_eng); exact (N x A) end.
Qed.

Lemma client12_packet_at p x : fin_c (cl_state x) = true -> wp (eng12_parse_packet E p) (fun r e => able E e /\ panics_by X r) (cl_eng x) ->
  wp (client12_handle_packet E p) (fun r y => able E (cl_eng y) /\ panics_by X r) x.
Proof.
  intros F H. apply good_c_public. apply wp_bind. unfold wp in H. unfold wp at 1. unfold ceng, zoom. destruct (eng12_parse_packet E p (cl_eng x)) as [[a|e|n] y]; cbn in *;
    [apply np_c_progress; [exact F|apply H]|exact H..].
Qed.
Lemma server12_packet_at p x : fin_s (sv_state x) = true -> wp (eng12_parse_packet E p) (fun r e => able E e /\ panics_by X r) (sv_eng x) ->
  wp (server12_handle_packet E p) (fun r y => able E (sv_eng y) /\ panics_by X r) x.
Proof.
  intros F H. apply good_s_public. apply wp_bind. unfold wp in H. unfold wp at 1. unfold seng, zoom. destruct (eng12_parse_packet E p (sv_eng x)) as [[a|e|n] y]; cbn in *;
    [apply np_s_progress; [exact F|apply H]|exact H..].
Qed.

Definition is_poll12 (k : Call) : bool := match k with Poll _ => true | _ => false end.
Lemma end12_panics k s : is_poll12 k = false -> (forall p, k = Packet p -> bytes_ok p /\ X 364) ->
  match s with Cl c => fin_c (cl_state c) = true | Sv c => fin_s (sv_state c) = true end -> able E (end_eng s) ->
  panics_by X (fst (end12_call E k s)).
Proof.
  assert (L : forall S (m : M S unit) (Q : S -> Prop) x, wp m (fun r y => Q y /\ panics_by X r) x -> panics_by X (fst (no_output m x))).
  { intros S m Q x H. unfold wp, no_output, bind in *. destruct (m x) as [[a|e|n] y]; cbn in *; tauto. }
  intros P B F A. destruct s as [c|c]; cbn [end_eng] in A; cbn [end12_call].
  - assert (G : panics_by X (fst (client12_call E k c))); [|destruct (client12_call E k c); exact G].
    destruct k as [p| |now|d|]; try discriminate P; cbn [client12_call]; eapply L;
      [apply client12_packet; [eapply B; reflexivity|eapply B; reflexivity|exact F|exact A]|apply client12_tick; assumption|apply (client12_sends d c A)|apply client12_closes; assumption].
  - assert (G : panics_by X (fst (server12_call E k c))); [|destruct (server12_call E k c); exact G].
    destruct k as [p| |now|d|]; try discriminate P; cbn [server12_call]; eapply L;
      [apply server12_packet; [eapply B; reflexivity|eapply B; reflexivity|exact F|exact A]|apply server12_tick; assumption|apply (server12_sends d c A)|apply server12_closes; assumption].
Qed.
End End.

(** C52, for a DTLS 1.2 endpoint that has reported [Connected], whatever was done with it
    before and after: [handle_timeout] at any time, sending of application data and
    closing do not make it panic, and a datagram does so in one place only: the
    assertion at src/dtls12/engine.rs:364, that no record of a protected epoch is
    received twice (panic 364 of the model).  (Beyond the property: the three other
    calls.)  Missing: that the assertion holds, which is false before the handshake is
    complete ([C52_duplicate_panics12_refuted]), and the other calls made during the
    handshake.

    Hypotheses on the outside: the suites of the crypto provider have one of the two
    supported nonce layouts, and the random generator returns as many bytes as asked. *)
Theorem C52_connected_panics12_partial : forall E cfg auth h s,
  suites12_ok E -> rand_ok E -> reach12 E cfg auth h s -> In OConnected (outputs h) ->
  (forall p n, bytes_ok p -> fst (end12_call E (Packet p) s) = Panic n -> n = 364) /\
  (forall now, ~ panicked (fst (end12_call E (Tick now) s))) /\
  (forall d, ~ panicked (fst (end12_call E (Send d) s))) /\
  ~ panicked (fst (end12_call E Close s)).
Proof.
  intros E cfg auth h s SOK RL R O. pose proof (connected_release E _ _ _ _ R O) as Rel. unfold end_release in Rel.
  destruct (reach_keys _ _ _ _ _ R) as (Li & K & Rp). pose proof (reach_end_inv _ _ _ _ _ R) as IV.
  assert (A : able E (end_eng s)) by (split; auto).
  assert (F : match s with Cl c => fin_c (cl_state c) = true | Sv c => fin_s (sv_state c) = true end)
    by (destruct s; [eapply released_fin_c|eapply released_fin_s]; eassumption).
  assert (N : forall k, is_poll12 k = false -> (forall p, k <> Packet p) -> ~ panicked (fst (end12_call E k s))).
  { intros k P NP. assert (G : panics_by (fun _ => False) (fst (end12_call E k s))) by (apply end12_panics; auto; intros p ->; destruct (NP p); reflexivity).
    destruct (fst (end12_call E k s)); auto. }
  split; [|repeat split; intros; apply N; (reflexivity || discriminate)].
  intros p n B H. assert (G : panics_by (fun n => n = 364) (fst (end12_call E (Packet p) s))) by (apply end12_panics; auto; intros p' [= <-]; auto).
  rewrite H in G. exact G.
Qed.
Print Assumptions C52_connected_panics12_partial.

(** The hypotheses are met by a client that received data. *)
Lemma connected_in os : existsb (fun o => match o with OConnected => true | _ => false end) os = true -> In OConnected os.
Proof. intro H. apply existsb_exists in H. destruct H as (o & I & H). destruct o; try discriminate. exact I. Qed.
Example C52_case12 :
  suites12_ok toy /\ rand_ok toy /\ reach12 toy config_default (toy_auth 7) (fst data_run) (snd data_run) /\ In OConnected (outputs (fst data_run)).
Proof.
  split; [exact toy_suites12_ok|]. split; [exact toy_rand_ok|]. split; [exact data_run_reach|]. apply connected_in. vm_compute. reflexivity.
Qed.

(** C52 against the network: no datagram without an authentic record (one protected with
    the peer's keys) makes a connected DTLS 1.2 endpoint panic. *)
Theorem C52_unauthentic_no_panic12_partial : forall E cfg auth h s p,
  suites12_ok E -> rand_ok E -> reach12 E cfg auth h s -> In OConnected (outputs h) -> bytes_ok p ->
  (forall raw ct ep sq d, record_of p raw -> ~ authentic12 E (end_eng s) raw ct ep sq d) ->
  ~ panicked (fst (end12_call E (Packet p) s)).
Proof.
  intros E cfg auth h s p SOK RL R O B NA. pose proof (connected_release E _ _ _ _ R O) as Rel. unfold end_release in Rel.
  destruct (reach_keys _ _ _ _ _ R) as (Li & K & Rp). pose proof (reach_end_inv _ _ _ _ _ R) as IV.
  assert (A : able E (end_eng s)) by (split; auto).
  pose proof (np_unauthentic E SOK (fun _ => False) RL p (end_eng s) (Rp Rel) A B NA) as W.
  assert (L : forall S (m : M S unit) (Q : S -> Prop) x, wp m (fun r y => Q y /\ panics_by (fun _ => False) r) x -> ~ panicked (fst (no_output m x))).
  { intros S m Q x H. unfold wp, no_output, bind in *. destruct (m x) as [[a|e|n] y]; cbn in *; tauto. }
  destruct s as [c|c]; cbn [end_eng inv_end] in *; cbn [end12_call].
  - assert (G : ~ panicked (fst (client12_call E (Packet p) c))); [|destruct (client12_call E (Packet p) c); exact G].
    eapply L. apply client12_packet_at; [exact SOK|exact RL|eapply released_fin_c; eassumption|exact W].
  - assert (G : ~ panicked (fst (server12_call E (Packet p) c))); [|destruct (server12_call E (Packet p) c); exact G].
    eapply L. apply server12_packet_at; [exact SOK|exact RL|eapply released_fin_s; eassumption|exact W].
Qed.
Print Assumptions C52_unauthentic_no_panic12_partial.

(** The forged record of [C32_example] meets its hypotheses. *)
Example C52_unauthentic_case12 :
  reach12 toy config_default (toy_auth 7) (fst data_run) (snd data_run) /\ In OConnected (outputs (fst data_run)) /\ bytes_ok junk /\ (13 < length junk)%nat /\
  (forall raw ct ep sq d, record_of junk raw -> ~ authentic12 toy (end_eng (snd data_run)) raw ct ep sq d).
Proof.
  split; [exact data_run_reach|]. split; [exact (proj2 (proj2 (proj2 C52_case12)))|]. split; [exact (proj1 (proj2 C32_example))|].
  split; [vm_compute; lia|exact (proj1 (proj2 (proj2 C32_example)))].
Qed.
