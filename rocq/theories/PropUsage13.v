(** C30: the limit on records protected under one key. *)
From Verif Require Import Prelude PreludeFacts Types Codec Codec12 Codec13 Record13 Monad MonadFacts Env Config Engine12 Client12 Engine13 Client13 Server13
  Toy History12 Conn12 History13 Frame13 Lift13 Send13Proofs PropPoll13 Trace13 Trace13Proofs Conn13.

(** ** The threshold *)

Definition thr_from (E : Env) (e : Eng13) : Prop :=
  exists t, g_thr e = jittered_threshold E (c_aead_limit (g_cfg e)) t.
Lemma thr_frame E : eng_frame13 E (fun a b => thr_from E a -> thr_from E b).
Proof.
  pose proof (preorder_inv (thr_from E)) as PO.
  frame13_over ltac:(idtac; lazymatch goal with
    | |- pres _ (update_send_keys _) => unfold update_send_keys;
        presauto PO ltac:(first [apply op_derive_epoch_keys; exact PO | apply op_next_secret; exact PO
          | apply op_draw13; [exact PO|intros v s H; exact H]
          | apply pres_modify; intros s H; first [exact H | eexists; reflexivity]])
    end) ltac:(first [exact PO | intros v s H; exact H | intros s H; exact H | intros; assumption]).
Qed.

Lemma jitter_range E limit t :
  3 * limit <= 4 * jittered_threshold E limit t /\ jittered_threshold E limit t <= limit.
Proof.
  unfold jittered_threshold. destruct (limit / 4 =? 0) eqn:H; [lia|].
  pose proof (N.mod_lt (e_threshold E t (limit / 4 + 1)) (limit / 4 + 1) ltac:(lia)).
  pose proof (N.div_mod' limit 4). pose proof (N.mod_lt limit 4 ltac:(lia)). lia.
Qed.

(** In every reachable state the threshold lies between three quarters of the
    configured limit and the limit. *)
Theorem C30_threshold13 : forall E cfg cert key h s, reach13 E cfg cert key h s ->
  3 * c_aead_limit cfg <= 4 * g_thr (end13_eng s) /\ g_thr (end13_eng s) <= c_aead_limit cfg.
Proof.
  intros E cfg cert key h s H.
  assert (T : thr_from E (end13_eng s)).
  { revert h s H. apply (eng13_inv E (thr_from E) cfg cert key (thr_frame E)).
    - intros e (b & n & ->). exists 1. reflexivity.
    - intros f. exists 1. reflexivity. }
  assert (C : g_cfg (end13_eng s) = cfg).
  { revert h s H T. intros h s H _. revert h s H.
    apply (eng13_inv E (fun e => g_cfg e = cfg) cfg cert key).
    - pose proof (preorder_inv (fun e => g_cfg e = cfg)) as PO.
      frame13_all ltac:(first [exact PO | intros v s H; exact H | intros s H; exact H | intros; assumption]).
    - intros e (b & n & ->). reflexivity.
    - intros f. reflexivity. }
  destruct T as [t Ht]. rewrite Ht, C. apply jitter_range.
Qed.
Print Assumptions C30_threshold13.

(** ** Counting *)

Lemma no_prev_ack E d : pres (fun a b => g_prev a = None -> g_prev b = None) (process_ack E d).
Proof.
  pose proof (preorder_inv (fun e => g_prev e = None)) as PO.
  intros s0 H0. unfold process_ack. destruct (p_ack _); [|exact H0].
  match goal with |- g_prev (snd (?m s0)) = None =>
    change (wp m (fun _ s' => g_prev s' = None) s0) end.
  apply wp_bind, wp_modify, wp_bind, wp_get, wp_bind.
  apply wp_when; intros _; [apply wp_modify|]; apply wp_bind, wp_get.
  all: (apply wp_when; intros _; [|exact H0]); apply wp_bind; unfold update_send_keys;
       apply wp_bind, wp_get.
  all: match goal with |- wp (match ?x with _ => _ end) _ _ => destruct x as [cur|] end; [|exact H0].
  all: apply wp_bind, wp_modify, wp_bind.
  all: eapply wp_mono; [apply (wp_pres (fun a b => g_prev a = None -> g_prev b = None)), op_next_secret; exact PO|].
  all: intros [nx|?|?] s1 H1; [|apply H1; exact H0..].
  all: apply wp_bind; eapply wp_mono; [apply (wp_pres (fun a b => g_prev a = None -> g_prev b = None)), op_derive_epoch_keys; exact PO|].
  all: intros [ks|?|?] s2 H2; [|apply H2, H1; exact H0..].
  all: unfold draw13; wps; reflexivity.
Qed.
Lemma no_prev_frame E : eng_frame13 E (fun a b => g_prev a = None -> g_prev b = None).
Proof.
  pose proof (preorder_inv (fun e => g_prev e = None)) as PO.
  frame13_over ltac:(idtac; lazymatch goal with
    | |- pres _ (process_ack _ _) => apply no_prev_ack
    end) ltac:(first [exact PO | intros v s H; exact H | intros s H; exact H | intros; assumption]).
Qed.
Lemma no_prev E cfg cert key h s : reach13 E cfg cert key h s -> g_prev (end13_eng s) = None.
Proof.
  revert h s. apply (eng13_inv E (fun e => g_prev e = None) cfg cert key (no_prev_frame E)).
  - intros e (b & n & ->). reflexivity.
  - intros f. reflexivity.
Qed.

(** A successful write on an open connection is counted against the current key, and
    asks for a key update once the count has reached the threshold.  (The epoch is 3
    or more until its 16 bits wrap.) *)
Theorem C30_counted13 : forall E cfg cert key h s d o s',
  reach13 E cfg cert key h s -> open13 s -> 3 <= g_epoch (end13_eng s) ->
  end13_call E (Send d) s = (Ok o, s') ->
  g_count (end13_eng s') = g_count (end13_eng s) + 1 /\ g_thr (end13_eng s') = g_thr (end13_eng s) /\
  (g_thr (end13_eng s') <= g_count (end13_eng s') -> g_needs (end13_eng s') = true).
Proof.
  intros E cfg cert key h s d o s' Hr Ho He H. pose proof (no_prev _ _ _ _ _ _ Hr) as Hp.
  assert (G : forall e, g_prev e = None -> 3 <= g_epoch e ->
    wp (create_cipher13 E CT_APP (g_epoch e) false d) (fun r e' =>
      match r with
      | Ok _ => g_count e' = g_count e + 1 /\ g_thr e' = g_thr e /\ (g_thr e' <= g_count e' -> g_needs e' = true)
      | _ => True
      end) e).
  { intros e P Q. wpuse create_cipher_spec. cbv zeta. intros x e' Hx. destruct x as [u|x|n]; [|exact I..].
    destruct Hx as (cs & i & k & body & rec & _ & _ & _ & _ & _ & _ & _ & ->).
    assert (K : ctx13 e (g_epoch e) = CtxApp).
    { unfold ctx13. rewrite P. cbn [is_some andb]. replace (g_epoch e =? 2) with false by lia. reflexivity. }
    rewrite K. unfold emit13, keep13, bump_seq. cbv zeta. replace (3 <=? g_epoch e) with true by lia.
    cbn [g_count g_thr set_g_count set_g_app_seq].
    destruct (g_thr e <=? g_count e + 1) eqn:Hc; destruct (can_append13 e _);
      cbn [g_count g_thr g_needs set_g_count set_g_app_seq set_g_needs set_g_tx set_g_sealed];
      (split; [reflexivity|]); (split; [reflexivity|]); intro; first [reflexivity | lia]. }
  destruct s as [c|c]; cbn [open13 end13_call client13_call server13_call end13_eng] in *;
    unfold no_output, client13_send, server13_send, bind, get, xeng, yeng, zoom, ret in H; rewrite Ho in H.
  - specialize (G (xc_eng c) Hp He). unfold wp in G.
    destruct (create_cipher13 E CT_APP (g_epoch (xc_eng c)) false d (xc_eng c)) as [x e'].
    cbn [fst snd] in G. destruct x; [|discriminate..]. injection H as _ <-. exact G.
  - specialize (G (xs_eng c) Hp He). unfold wp in G.
    destruct (create_cipher13 E CT_APP (g_epoch (xs_eng c)) false d (xs_eng c)) as [x e'].
    cbn [fst snd] in G. destruct x; [|discriminate..]. injection H as _ <-. exact G.
Qed.
Print Assumptions C30_counted13.

(** ** Starting the key update *)

(** A key update is wanted and none is under way. *)
Definition wants (e : Eng13) : Prop := g_needs e = true /\ g_inflight e = false.
Lemma wants_bump c ep e : wants e -> wants (bump_seq c ep e).
Proof.
  intros [H1 H2]. unfold wants, bump_seq. destruct c; cbv zeta; auto. destruct (3 <=? ep); auto.
  destruct (_ <=? _); auto.
Qed.
Ltac wants_over PO := idtac; lazymatch goal with
  | |- pres _ (process_ack _ _) =>
      intros s0 H0; unfold process_ack; destruct (p_ack _); [|exact H0];
      match goal with |- wants (snd (?m s0)) =>
        change (wp m (fun _ s' => wants s') s0) end;
      apply wp_bind, wp_modify, wp_bind, wp_get; apply wp_bind;
      destruct H0 as [H1 H2];
      apply wp_when; intros _; [apply wp_modify|]; apply wp_bind, wp_get;
      cbn [g_inflight set_g_saved set_g_flight]; rewrite H2; cbn [andb when]; apply wp_ret; split; assumption
  | |- pres _ (create_cipher13 _ _ _ _ _) =>
      unfold create_cipher13; presauto PO ltac:(first
        [ apply op_save; [exact PO|intros v s H; exact H]
        | apply op_enqueue; [exact PO|intros v s H; exact H..]
        | apply op_suite_provider; exact PO | apply pres_modify; intros s H; apply wants_bump, H ])
  end.
Ltac wants_frame PO := fr13o ltac:(wants_over PO)
  ltac:(first [exact PO | intros v s H; exact H | intros s H; exact H | intros; assumption]).
Lemma wants_parse E p : pres (fun a b => wants a -> wants b) (eng13_parse_packet E p).
Proof. pose proof (preorder_inv wants) as PO. wants_frame PO. Qed.
Lemma wants_timeout E now : pres (fun a b => wants a -> wants b) (eng13_handle_timeout E now).
Proof. pose proof (preorder_inv wants) as PO. wants_frame PO. Qed.

Definition busy (e : Eng13) : Prop := g_inflight e = true.
Ltac busy_frame := pose proof (preorder_inv busy) as PO;
  fr13 ltac:(first [exact PO | intros v s H; exact H | intros s H; exact H | intros; assumption]).
Lemma busy_cipher E ct ep sv f : pres (fun a b => busy a -> busy b) (create_cipher13 E ct ep sv f).
Proof. busy_frame. Qed.
Lemma busy_key_update E b : pres (fun a b => busy a -> busy b) (create_key_update E b).
Proof.
  pose proof (preorder_inv busy) as PO. unfold create_key_update.
  presauto PO ltac:(first [apply busy_cipher | apply pres_modify; intros s H; first [exact H|reflexivity]
    | apply fr_flight_begin13; first [exact PO | intros v s H; exact H]]).
Qed.
Lemma busy_next a b w : pres (fun a b => busy a -> busy b) (next_handshake13_gen a b w).
Proof. busy_frame. Qed.
Lemma busy_recv E : pres (fun a b => busy a -> busy b) (update_recv_keys E).
Proof. busy_frame. Qed.
Lemma busy_ack E : pres (fun a b => busy a -> busy b) (send_ack13 E).
Proof. busy_frame. Qed.
Lemma busy_advance : pres (fun a b => busy a -> busy b) advance_peer.
Proof. busy_frame. Qed.

Definition tx_err (x : error) : Prop := x = ECrypto \/ x = ETxFull.
Lemma key_update_busy E b e : wp (create_key_update E b) (fun r e' =>
  match r with Ok _ => busy e' | Err x => tx_err x | _ => True end) e.
Proof.
  unfold create_key_update. apply wp_bind. eapply wp_mono with (P := fun r _ => match r with Ok _ => True | _ => False end).
  { unfold flight_begin13, draw13. wps; exact I. }
  intros [[]|x|n] s1 H1; try contradiction. apply wp_bind, wp_get, wp_bind, wp_modify. apply wp_bind.
  eapply wp_mono with (P := fun r _ => match r with Err x => tx_err x | _ => True end).
  { unfold create_cipher13, save13, suite_provider13, enqueue13, tx_err.
    repeat first [exact I | left; reflexivity | right; reflexivity | wpstep]. }
  intros [[]|x|n] s2 H2; [|exact H2|exact I]. apply wp_modify. reflexivity.
Qed.

Section Progress.
Variable E : Env.
Definition busy_x (c : Client13) : Prop := busy (xc_eng c).
Definition busy_y (c : Server13) : Prop := busy (xs_eng c).
Let POx := preorder_inv busy_x.
Let POy := preorder_inv busy_y.
Lemma bx {A} (m : M Eng13 A) : pres (fun a b => busy a -> busy b) m -> pres (fun a b => busy_x a -> busy_x b) (xeng m).
Proof. apply pres_zoom. auto. Qed.
Lemma by_ {A} (m : M Eng13 A) : pres (fun a b => busy a -> busy b) m -> pres (fun a b => busy_y a -> busy_y b) (yeng m).
Proof. apply pres_zoom. auto. Qed.
Ltac bleaf := first [apply busy_cipher|apply busy_key_update|apply busy_next|apply busy_recv|apply busy_ack|apply busy_advance].

Lemma x_starts c : wants (xc_eng c) -> wp (x_await_application_data E) (fun r c' =>
  match r with Ok st => st = CT_AwaitApplicationData /\ busy_x c' | Err ETransient => busy_x c' | _ => True end) c.
Proof.
  intros [H1 H2]. unfold x_await_application_data, take_needs_key_update. apply wp_bind. unfold xeng at 1.
  apply wp_zoom, wp_bind, wp_get, wp_bind, wp_modify, wp_ret. apply wp_bind, wp_get.
  rewrite H1. cbn [xc_eng set_xc_eng g_inflight set_g_needs]. rewrite H2. cbn [negb andb when].
  apply wp_bind. unfold xeng at 1. apply wp_zoom. wpuse key_update_busy. intros [[]|e|n] e1 B1; [|destruct B1 as [->| ->]; exact I|exact I].
  match goal with |- wp ?m _ ?s => assert (B : busy_x s) by exact B1; generalize dependent s; intros c1 B;
    apply wp_mono with (P := fun r c' => busy_x c' /\ match r with Ok st => st = CT_AwaitApplicationData | _ => True end) end.
  2:{ intros [st|[]|n] c2 [K1 K2]; auto. }
  apply wp_conj.
  - match goal with |- wp ?m _ _ => assert (P : pres (fun a b => busy_x a -> busy_x b) m) end.
    { unfold next_handshake13_no_transcript.
      presauto POx ltac:(first [apply bx; bleaf | apply pres_modify; intros s H; exact H]). }
    apply P. exact B.
  - repeat first [ apply wp_get | apply wp_bind; apply wp_get | exact I | apply wp_ret; reflexivity
               | lazymatch goal with
                 | |- wp (bind _ _) _ _ => apply wp_bind, wp_intro; intros [?|?|?] ? _; [|exact I..]
                 | |- wp (match ?x with _ => _ end) _ _ => destruct x
                 end ].
Qed.
Lemma y_starts c : wants (xs_eng c) -> wp (y_await_application_data E) (fun r c' =>
  match r with Ok st => st = ST_AwaitApplicationData /\ busy_y c' | Err ETransient => busy_y c' | _ => True end) c.
Proof.
  intros [H1 H2]. unfold y_await_application_data, take_needs_key_update. apply wp_bind. unfold yeng at 1.
  apply wp_zoom, wp_bind, wp_get, wp_bind, wp_modify, wp_ret. apply wp_bind, wp_get.
  rewrite H1. cbn [xs_eng set_xs_eng g_inflight set_g_needs]. rewrite H2. cbn [negb andb when].
  apply wp_bind. unfold yeng at 1. apply wp_zoom. wpuse key_update_busy. intros [[]|e|n] e1 B1; [|destruct B1 as [->| ->]; exact I|exact I].
  match goal with |- wp ?m _ ?s => assert (B : busy_y s) by exact B1; generalize dependent s; intros c1 B;
    apply wp_mono with (P := fun r c' => busy_y c' /\ match r with Ok st => st = ST_AwaitApplicationData | _ => True end) end.
  2:{ intros [st|[]|n] c2 [K1 K2]; auto. }
  apply wp_conj.
  - match goal with |- wp ?m _ _ => assert (P : pres (fun a b => busy_y a -> busy_y b) m) end.
    { unfold next_handshake13_no_transcript.
      presauto POy ltac:(first [apply by_; bleaf | apply pres_modify; intros s H; exact H]). }
    apply P. exact B.
  - repeat first [ apply wp_get | apply wp_bind; apply wp_get | exact I | apply wp_ret; reflexivity
               | lazymatch goal with
                 | |- wp (bind _ _) _ _ => apply wp_bind, wp_intro; intros [?|?|?] ? _; [|exact I..]
                 | |- wp (match ?x with _ => _ end) _ _ => destruct x
                 end ].
Qed.

Definition sent_x (r : res unit) (c : Client13) : Prop :=
  match r with Ok _ => busy_x c | Err ETransient => busy_x c | _ => True end.
Lemma x_progress_starts n c : xc_state c = CT_AwaitApplicationData -> wants (xc_eng c) ->
  wp (x_progress E (S n)) sent_x c.
Proof.
  intros Hs Hw. cbn [x_progress]. apply wp_bind, wp_get, wp_bind. rewrite Hs. cbn [x_step].
  wpuse x_starts; [exact Hw|]. intros [st|e|k] c1 H; [|exact H|exact I].
  destruct H as [-> H]. change (cstate13_eqb CT_AwaitApplicationData CT_AwaitApplicationData) with true.
  cbv iota. apply wp_ret. exact H.
Qed.
Definition sent_y (r : res unit) (c : Server13) : Prop :=
  match r with Ok _ => busy_y c | Err ETransient => busy_y c | _ => True end.
Lemma y_progress_starts n c : xs_state c = ST_AwaitApplicationData -> wants (xs_eng c) ->
  wp (y_progress E (S n)) sent_y c.
Proof.
  intros Hs Hw. cbn [y_progress]. apply wp_bind, wp_get, wp_bind. rewrite Hs. cbn [y_step].
  wpuse y_starts; [exact Hw|]. intros [st|e|k] c1 H; [|exact H|exact I].
  destruct H as [-> H]. change (sstate13_eqb ST_AwaitApplicationData ST_AwaitApplicationData) with true.
  cbv iota. apply wp_ret. exact H.
Qed.
Lemma public_wp {S} (m : M S unit) (P : S -> Prop) s :
  wp m (fun r s' => match r with Ok _ => P s' | Err ETransient => P s' | _ => True end) s ->
  wp (public m) (fun r s' => match r with Ok _ => P s' | _ => True end) s.
Proof. unfold wp, public. destruct (m s) as [[x|[]|k] s']; cbn [fst snd]; auto. Qed.

Lemma x_tick now c : xc_state c = CT_AwaitApplicationData -> wants (xc_eng c) ->
  wp (client13_handle_timeout E now) (fun r c' => match r with Ok _ => busy_x c' | _ => True end) c.
Proof.
  intros Hs Hw. unfold client13_handle_timeout. apply wp_bind, wp_modify, wp_bind, wp_get, wp_bind.
  eapply wp_mono with (P := fun r c' => match r with Ok _ => xc_state c' = CT_AwaitApplicationData /\ wants (xc_eng c') | _ => True end).
  { cbn [xc_random set_xc_now]. destruct (xc_random c); [apply wp_ret; split; assumption|].
    unfold rand_bytes13, draw13, xeng. wps; first [exact I | split; assumption]. }
  intros [[]|e|k] c1 H1; [|exact I..]. destruct H1 as [Hs1 Hw1]. apply wp_bind. unfold xeng. apply wp_zoom.
  eapply wp_mono; [apply (wp_pres (fun a b => wants a -> wants b)), wants_timeout|]. intros [[]|e|k] e1 H1; [|exact I..].
  apply public_wp. unfold x_make_progress. change 40%nat with (S 39). apply x_progress_starts; [exact Hs1|exact (H1 Hw1)].
Qed.
Lemma y_tick now c : xs_state c = ST_AwaitApplicationData -> wants (xs_eng c) ->
  wp (server13_handle_timeout E now) (fun r c' => match r with Ok _ => busy_y c' | _ => True end) c.
Proof.
  intros Hs Hw. unfold server13_handle_timeout. apply wp_bind, wp_modify, wp_bind, wp_get, wp_bind.
  eapply wp_mono with (P := fun r c' => match r with Ok _ => xs_state c' = ST_AwaitApplicationData /\ wants (xs_eng c') | _ => True end).
  { cbn [xs_random set_xs_now]. destruct (xs_random c); [apply wp_ret; split; assumption|].
    unfold rand_bytes13, draw13, yeng. wps; first [exact I | split; assumption]. }
  intros [[]|e|k] c1 H1; [|exact I..]. destruct H1 as [Hs1 Hw1]. apply wp_bind. unfold yeng. apply wp_zoom.
  eapply wp_mono; [apply (wp_pres (fun a b => wants a -> wants b)), wants_timeout|]. intros [[]|e|k] e1 H1; [|exact I..].
  apply public_wp. unfold y_make_progress. change 40%nat with (S 39). apply y_progress_starts; [exact Hs1|exact (H1 Hw1)].
Qed.
End Progress.

(** When the count asks for a key update and none is in flight, the next successful
    [handle_timeout] leaves one in flight. *)
Theorem C30_update_started13_partial : forall E s now o s',
  open13 s -> g_needs (end13_eng s) = true -> g_inflight (end13_eng s) = false ->
  end13_call E (Tick now) s = (Ok o, s') -> g_inflight (end13_eng s') = true.
Proof.
  intros E s now o s' Ho H1 H2 H.
  destruct s as [c|c]; cbn [open13 end13_call client13_call server13_call end13_eng] in *;
    unfold no_output, bind, ret in H.
  - pose proof (x_tick E now c Ho (conj H1 H2)) as G. unfold wp in G.
    destruct (client13_handle_timeout E now c) as [[x|x|x] c']; cbn [fst snd] in G; try discriminate.
    injection H as _ <-. exact G.
  - pose proof (y_tick E now c Ho (conj H1 H2)) as G. unfold wp in G.
    destruct (server13_handle_timeout E now c) as [[x|x|x] c']; cbn [fst snd] in G; try discriminate.
    injection H as _ <-. exact G.
Qed.
Print Assumptions C30_update_started13_partial.

(** The run of [Conn13] with an AEAD limit of 1: after one write the update is wanted
    and the next [handle_timeout] starts it. *)
Definition cfg_limit : Config := mkConfig 1150 30 10 true true 1000000000 4 40000000000 1 None None None None.
Definition xl0 : End13 := new_client13 toy cfg_limit [48; 7] (toy_key 7) 0.
Definition xl_calls : list Call := Eval vm_compute in calls_of (fst (fst
  (pump_log13 toy toy2 8 (call_log13 toy (Tick 5) ([], xl0)) (call_log13 toy2 (Tick 5) ([], xs0))))).
Definition xl_run (cs : list Call) : Log * End13 := replay13 toy (xl_calls ++ cs) xl0.
Lemma xl_run_reach cs : quiet (removelast (fst (xl_run cs))) = true ->
  reach13 toy cfg_limit [48; 7] (toy_key 7) (fst (xl_run cs)) (snd (xl_run cs)).
Proof.
unfold xl_run. intro Q. apply run13_reach; [unfold xl0; apply new_client13_start|exact Q]. Qed.
Definition usage_of (s : End13) : N * N * N * bool * bool :=
  (g_epoch (end13_eng s), g_count (end13_eng s), g_thr (end13_eng s), g_needs (end13_eng s), g_inflight (end13_eng s)).
Definition xl_write : End13 := snd (xl_run [Send [1; 2; 3]]).
Definition xl_state (s : End13) : option CState13 := match s with XC c => Some (xc_state c) | XS _ => None end.
Example C30_case :
  reach13 toy cfg_limit [48; 7] (toy_key 7) (fst (xl_run [Send [1; 2; 3]])) xl_write /\
  xl_state xl_write = Some CT_AwaitApplicationData /\ usage_of (snd (xl_run [])) = (3, 0, 1, false, false) /\
  usage_of xl_write = (3, 1, 1, true, false) /\
  fst (end13_call toy (Tick 7) xl_write) = Ok None /\
  usage_of (snd (end13_call toy (Tick 7) xl_write)) = (3, 2, 1, true, true).
Proof.
  split; [apply (xl_run_reach [Send [1; 2; 3]]); vm_compute; reflexivity|].
  do 4 (split; [vm_compute; reflexivity|]). vm_compute. reflexivity.
Qed.

(** What is missing from the property: when the send queue is full, starting the key
    update fails and the request is forgotten.  The limit stays exceeded and a later
    successful [handle_timeout] starts nothing. *)
Definition big : bytes := repeat 5 1100.
Definition lost_calls : list Call := repeat (Send big) 10 ++ [Tick 7] ++ repeat (Poll 3000) 10 ++ [Tick 8].
Definition lost_run : Log * End13 := xl_run lost_calls.
Lemma pair_fst {A B} (x : A * B) a : fst x = a -> x = (a, snd x).
Proof. destruct x. cbn. intros ->. reflexivity. Qed.
Theorem C30_update_lost13_refuted : exists E cfg cert key h s now s',
  reach13 E cfg cert key h s /\ open13 s /\ c_aead_limit cfg < g_count (end13_eng s) /\
  3 <= g_epoch (end13_eng s) /\ g_inflight (end13_eng s) = false /\
  end13_call E (Tick now) s = (Ok None, s') /\ g_inflight (end13_eng s') = false /\
  g_count (end13_eng s') = g_count (end13_eng s).
Proof.
  exists toy, cfg_limit, [48; 7], (toy_key 7), (fst lost_run), (snd lost_run), 9,
    (snd (end13_call toy (Tick 9) (snd lost_run))).
  split; [apply (xl_run_reach lost_calls); vm_compute; reflexivity|].
  split; [vm_compute; reflexivity|]. split; [vm_compute; reflexivity|].
  split; [intro K; vm_compute in K; discriminate K|]. split; [vm_compute; reflexivity|].
  split; [|split; vm_compute; reflexivity].
  apply pair_fst. vm_compute. reflexivity.
Qed.
Print Assumptions C30_update_lost13_refuted.
