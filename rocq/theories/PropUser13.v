(** C42, C43: what a DTLS 1.3 endpoint sends for its user. *)
From Coq Require Import Permutation.
From Verif Require Import Prelude PreludeFacts Types Codec Codec12 Codec13 Record12 Record13 Monad MonadFacts Timer
  Env Config Aead Prf Window AuxProofs SeqRecon Engine12 Client12 Engine13 Client13 Server13 Toy History12 History12Facts Conn12 History13 Conn13
  Frame13 Lift13 Trace13 Trace13Proofs Out13 Send13Proofs Nonce13 Index13 Ledger12 Evidence12 Evidence13 ClientInv12 ClientStep12
  HsEng13 ClientInv13 ClientStep13 ClientDone13 ServerStep13 ServerDone13 User13 UserState13 PropTimer13.

(** The vocabulary: [Sent13], [sent_ok] and [enc] (Nonce13.v) are records as sent;
    [writes h] are the writes [send_application_data] accepted in the history [h], in
    order; [calm h]: no call of [h] failed because the send queue was full, protection
    failed or in a panic (Ledger12.v); [was_connected13 h s]: Connected was reported or
    waits to be polled. *)

(** [zs] are all the records handed out, in order, and after them those waiting to be
    polled. *)
Definition produced13 (E : Env) (h : list (Call * Reply)) (s : End13) (zs : list Sent13) : Prop :=
  exists sent queued : list (list Sent13),
    datagrams (outputs h) = map enc sent /\ g_tx (end13_eng s) = map enc queued /\
    zs = concat (sent ++ queued) /\ Forall (sent_ok E) zs.
Definition contents13 (ct : N) (zs : list Sent13) : list bytes := map z_frag (filter (fun z => z_type z =? ct) zs).
(** Writes waiting for the handshake to complete. *)
Definition end_queued13 (s : End13) : list bytes := match s with XC c => xc_queued c | XS c => xs_queued c end.
Definition close_notify13 : bytes := [1; 0].

Definition end_closed13 (s : End13) : bool :=
  match s with XC c => 11 <=? xr (xc_state c) | XS c => 11 <=? yr (xs_state c) end.

(** ** The account of a history *)

Lemma in_cks os : In LE_Connected (cks os) <-> In OConnected os.
Proof.
  unfold cks. rewrite in_flat_map. split.
  - intros (o & H1 & H2). destruct o; cbn in H2; try tauto; destruct H2 as [H2|[]]; discriminate.
  - intros H. exists OConnected. split; [exact H|left; reflexivity].
Qed.
Lemma connected_V h s evs : evs = end13_events s -> (In LE_Connected (Vof (outputs h) evs) <-> was_connected13 h s).
Proof.
  intros ->. unfold Vof, was_connected13. rewrite in_app_iff, in_cks, filter_In. cbn [is_ck]. intuition.
Qed.
Definition facts13 (E : Env) (h : list (Call * Reply)) (s : End13) : Prop :=
  exists U V, UL E (outputs h) U (end13_eng s) /\ (V = true <-> was_connected13 h s) /\
    (V = false -> U = []) /\ alerts13 U = (if end_closed13 s && V then [[1; 0]] else []) /\
    (exists rest, Permutation (apps13 U ++ end_queued13 s ++ rest) (writes h)) /\
    (calm h = true -> apps13 U ++ end_queued13 s = writes h) /\
    (calm h = true -> V = true -> end_queued13 s = []).

Lemma V_case {A} (V : list A) : {V = []} + {V <> []}.
Proof. destruct V; [left; reflexivity|right; discriminate]. Qed.
Lemma jux_facts E cfg X h c : JUX E cfg X (outputs h) (writes h) (calm h) c -> facts13 E h (XC c).
Proof.
  intros ((J1 & J2 & J3) & (U & B1 & B2 & B3 & B4) & Q). 
  set (V := Vof (outputs h) (xc_events c)) in *.
  assert (HV : V <> [] <-> was_connected13 h (XC c)).
  { rewrite <- (connected_V h (XC c) (xc_events c) eq_refl). fold V. split.
    - intros H. destruct J2 as [J2|(_ & _ & k & J2 & _)]; [elim H; exact J2|]. unfold V, Vof. rewrite J2. left. reflexivity.
    - intros H Hn. rewrite Hn in H. destruct H. }
  exists U, (if V_case V then false else true). split; [exact B1|].
  destruct (V_case V) as [V0|V0].
  - split; [split; [discriminate|intros K; apply HV in K; elim K; exact V0]|]. rewrite andb_false_r.
    assert (U = []) as -> by (destruct (px (xc_state c)); tauto). repeat split; auto. discriminate.
  - split; [split; [intros _; apply HV, V0|reflexivity]|]. split; [discriminate|]. rewrite andb_true_r. cbn [end_closed13].
    destruct (px (xc_state c)) eqn:Hp.
    + destruct B2 as [B2 _]. elim V0. exact B2.
    + assert (Hs : xc_state c = CT_AwaitApplicationData) by (destruct (xc_state c); try discriminate; reflexivity). rewrite Hs. cbn.
      destruct B2 as [_ B2]. repeat split; auto.
    + assert (Hs : xc_state c = CT_HalfClosedLocal) by (destruct (xc_state c); try discriminate; reflexivity). rewrite Hs. cbn.
      destruct B2 as (_ & B2 & B5). repeat split; auto.
    + assert (Hs : xc_state c = CT_Closed) by (destruct (xc_state c); try discriminate; reflexivity). rewrite Hs. cbn.
      destruct B2 as [[B2 _]|(_ & B2 & B5)]; [elim V0; exact B2|]. repeat split; auto.
Qed.
Lemma juy_facts E cfg h c : JUY E cfg (outputs h) (writes h) (calm h) c -> facts13 E h (XS c).
Proof.
  intros ((J1 & J2 & J3) & (U & B1 & B2 & B3 & B4) & Q). 
  set (V := Vof (outputs h) (xs_events c)) in *.
  assert (HV : V <> [] <-> was_connected13 h (XS c)).
  { rewrite <- (connected_V h (XS c) (xs_events c) eq_refl). fold V. split.
    - intros H. destruct J2 as [J2|(_ & _ & k & J2 & _)]; [elim H; exact J2|]. unfold V, Vof. rewrite J2. left. reflexivity.
    - intros H Hn. rewrite Hn in H. destruct H. }
  exists U, (if V_case V then false else true). split; [exact B1|].
  destruct (V_case V) as [V0|V0].
  - split; [split; [discriminate|intros K; apply HV in K; elim K; exact V0]|]. rewrite andb_false_r.
    assert (U = []) as -> by (destruct (py (xs_state c)); tauto). repeat split; auto. discriminate.
  - split; [split; [intros _; apply HV, V0|reflexivity]|]. split; [discriminate|]. rewrite andb_true_r. cbn [end_closed13].
    destruct (py (xs_state c)) eqn:Hp.
    + destruct B2 as [B2 _]. elim V0. exact B2.
    + assert (Hs : xs_state c = ST_AwaitApplicationData) by (destruct (xs_state c); try discriminate; reflexivity). rewrite Hs. cbn.
      destruct B2 as [_ B2]. repeat split; auto.
    + assert (Hs : xs_state c = ST_HalfClosedLocal) by (destruct (xs_state c); try discriminate; reflexivity). rewrite Hs. cbn.
      destruct B2 as (_ & B2 & B5). repeat split; auto.
    + assert (Hs : xs_state c = ST_Closed) by (destruct (xs_state c); try discriminate; reflexivity). rewrite Hs. cbn.
      destruct B2 as [[B2 _]|(_ & B2 & B5)]; [elim V0; exact B2|]. repeat split; auto.
Qed.

Lemma start_books E os e V : datagrams os = [] -> g_tx e = [] -> g_saved e = [] -> V = [] -> Bk E os V Ph_Before [] [] true e.
Proof.
  intros H1 H2 H3 ->. exists []. split; [|split; [auto|split; [exists []; reflexivity|reflexivity]]].
  split; [rewrite H3; constructor|]. exists []. rewrite H1, H2. repeat split; constructor.
Qed.
Theorem account13 E cfg cert key h s : reach13 E cfg cert key h s -> facts13 E h s.
Proof.
  intros (s0 & Hs & Hh). destruct Hs as [s0 Hf|random fragment kx now c0 Hc].
  - pose proof (fresh13_shape _ _ _ _ _ Hf) as (F1 & F2 & F3). pose proof (fresh13_eng _ _ _ _ _ Hf) as (Fe & Fs).
    destruct Fe as (b & n & Fe).
    destruct s0 as [c0|c0]; cbn [end13_eng] in *.
    + destruct F3 as (F3 & F4 & F5 & F6). destruct Fs as (now & Fs).
      destruct (jux_history E cfg (fun _ => False) c0 h s) as (c1 & -> & J); [|exact Hh|exact (jux_facts _ _ _ _ _ J)].
      split; [|split].
      * split; [|split; [left; rewrite F6; reflexivity|intros x []]]. rewrite F3, F6. intros _. split; [|reflexivity].
        split; cbn [xr]; try lia; [exact F1|rewrite F4; discriminate|auto].
      * unfold BCX. rewrite F3. assert (xc_queued c0 = []) as -> by (rewrite Fs; reflexivity).
        apply start_books; [reflexivity|rewrite Fe; reflexivity|rewrite Fe; reflexivity|rewrite F6; reflexivity].
      * intros _ K. rewrite F3 in K. discriminate.
    + destruct F3 as (F3 & F4 & F5 & F6 & F7). destruct Fs as (now & auto & e & Fs).
      destruct (juy_history E cfg c0 h s) as (c1 & -> & J); [|exact Hh|exact (juy_facts _ _ _ _ J)].
      split; [|split].
      * split; [|split; [left; rewrite F6; reflexivity|intros x []]]. rewrite F3, F6. intros _. split; [|reflexivity].
        split; cbn [yr]; try lia; auto.
      * unfold BCY. rewrite F3. assert (xs_queued c0 = []) as -> by (rewrite Fs; reflexivity).
        apply start_books; [reflexivity|rewrite Fe; reflexivity|rewrite Fe; reflexivity|rewrite F6; reflexivity].
      * intros _ K. rewrite F3 in K. discriminate.
  - rewrite from_hybrid in Hc. set (d := hybrid_client E cfg cert key random fragment kx now) in *.
    assert (J0 : JUX E cfg (eq kx) [] [] true d).
    { split; [|split].
      - split; [|split; [left; reflexivity|intros x []]]. intros _. split; [|reflexivity].
        split; [reflexivity|discriminate|auto| |cbn; lia]. intros _ kx' Hk. right. injection Hk as ->. reflexivity.
      - apply start_books; reflexivity.
      - intros _ K. discriminate. }
    clearbody d. pose proof (jux_tick E cfg (eq kx) [] [] true d now _ _ J0 Hc) as J1. cbn [lossy negb andb] in J1.
    destruct (jux_history E cfg (eq kx) c0 h s) as (c1 & -> & J); [exact J1|exact Hh|exact (jux_facts _ _ _ _ _ J)].
Qed.
Lemma produced_of E h s U : UL E (outputs h) U (end13_eng s) -> exists zs, produced13 E h s zs /\
  contents13 CT_APP zs = apps13 U /\ contents13 CT_ALERT zs = alerts13 U /\
  (forall z, In z zs -> z_type z = CT_APP \/ z_type z = CT_ALERT -> z_key z <> None).
Proof.
  intros (_ & rss & L1 & L2 & L3 & L4). exists (concat rss). split; [|split; [|split]].
  - exists (firstn (length (datagrams (outputs h))) rss), (skipn (length (datagrams (outputs h))) rss).
    rewrite firstn_skipn. split; [|split; [|split; [reflexivity|exact L2]]].
    + rewrite <- firstn_map, <- L1, firstn_app, Nat.sub_diag, firstn_all. cbn. symmetry. apply app_nil_r.
    + rewrite <- skipn_map, <- L1, skipn_app, Nat.sub_diag, skipn_all. reflexivity.
  - unfold contents13, apps13. subst U. f_equal. clear. induction (concat rss) as [|z l IH]; [reflexivity|]. cbn [filter].
    unfold user. destruct (z_type z =? CT_APP) eqn:K; cbn [orb].
    + cbn [filter]. rewrite K, IH. reflexivity.
    + destruct (z_type z =? CT_ALERT); cbn [filter]; [rewrite K|]; exact IH.
  - unfold contents13, alerts13. subst U. f_equal. clear. induction (concat rss) as [|z l IH]; [reflexivity|]. cbn [filter].
    unfold user. destruct (z_type z =? CT_ALERT) eqn:K; cbn [orb].
    + rewrite orb_true_r. cbn [filter]. rewrite K, IH. reflexivity.
    + rewrite orb_false_r. destruct (z_type z =? CT_APP); cbn [filter]; [rewrite K|]; exact IH.
  - intros z Hz Ht. rewrite Forall_forall in L4. apply L4. subst U. apply filter_In. split; [exact Hz|]. apply user_user. exact Ht.
Qed.

(** ** C42: writes *)

(** Application data records are protected, each holds an accepted write, no write is
    sent twice (the records' contents, the writes held back and some lost ones make up
    the accepted writes), and there is none before Connected. *)
Theorem C42_at_most_once13 : forall E cfg cert key h s, reach13 E cfg cert key h s ->
  exists zs, produced13 E h s zs /\
    (forall z, In z zs -> z_type z = CT_APP -> z_key z <> None) /\
    (exists lost, Permutation (contents13 CT_APP zs ++ end_queued13 s ++ lost) (writes h)) /\
    (~ was_connected13 h s -> contents13 CT_APP zs = []).
Proof.
  intros E cfg cert key h s HR. destruct (account13 E cfg cert key h s HR) as (U & V & F1 & F2 & F3 & _ & F4 & _).
  destruct (produced_of E h s U F1) as (zs & P1 & P2 & _ & P3). exists zs. split; [exact P1|]. split; [auto|]. rewrite P2.
  split; [exact F4|]. intros N. destruct V; [elim N; apply F2; reflexivity|]. rewrite (F3 eq_refl). reflexivity.
Qed.
Print Assumptions C42_at_most_once13.

(** In order and nothing lost: unless a call failed because the send queue was full or
    protection failed, the application data sent, followed by the writes held back, is
    the accepted writes in order; and once Connected was raised nothing is held
    back. *)
Theorem C42_nothing_lost13 : forall E cfg cert key h s, reach13 E cfg cert key h s -> calm h = true ->
  exists zs, produced13 E h s zs /\ contents13 CT_APP zs ++ end_queued13 s = writes h /\
    (was_connected13 h s -> contents13 CT_APP zs = writes h) /\
    (~ was_connected13 h s -> contents13 CT_APP zs = []).
Proof.
  intros E cfg cert key h s HR HC. destruct (account13 E cfg cert key h s HR) as (U & V & F1 & F2 & F3 & _ & _ & F5 & F6).
  destruct (produced_of E h s U F1) as (zs & P1 & P2 & _ & _). exists zs. split; [exact P1|]. rewrite P2. specialize (F5 HC).
  split; [exact F5|]. split.
  - intros W. apply F2 in W. rewrite <- F5, (F6 HC W), app_nil_r. reflexivity.
  - intros N. destruct V; [elim N; apply F2; reflexivity|]. rewrite (F3 eq_refl). reflexivity.
Qed.
Print Assumptions C42_nothing_lost13.

(** Two writes before the handshake, one after it, then [close]. *)
Definition uc_calls : list Call := Send [1; 2] :: Send [3; 4; 5] :: xc_calls ++ [Send [6]; Poll 2000; Poll 2000; Close; Poll 2000].
Definition uc_run : Log * End13 := replay13 toy uc_calls xc0.
Lemma uc_reach : reach13 toy config_default [48; 7] (toy_key 7) (fst uc_run) (snd uc_run).
Proof. apply run13_reach; [apply new_client13_start|vm_compute; reflexivity]. Qed.
Lemma saw_connected h s : existsb (fun o => match o with OConnected => true | _ => false end) (outputs h) = true -> was_connected13 h s.
Proof. intros X. apply existsb_exists in X. destruct X as (o & H1 & H2). left. destruct o; try discriminate H2. exact H1. Qed.
Example C42_case13 : calm (fst uc_run) = true /\ writes (fst uc_run) = [[1; 2]; [3; 4; 5]; [6]] /\
  was_connected13 (fst uc_run) (snd uc_run) /\ end_queued13 (snd uc_run) = [].
Proof.
  split; [vm_compute; reflexivity|]. split; [vm_compute; reflexivity|]. split; [|vm_compute; reflexivity].
  apply saw_connected. vm_compute. reflexivity.
Qed.

(** ** C43: close *)

Lemma closed_progress_x E n : forall c r c', x_progress E n c = (r, c') -> (11 <=? xr (xc_state c')) = (11 <=? xr (xc_state c)).
Proof.
  induction n as [|n IH]; intros c r c' H; cbn [x_progress] in H; [injection H as _ <-; reflexivity|].
  unfold bind, get in H. destruct (x_step E (xc_state c) c) as [r1 c1] eqn:Hs.
  pose proof (x_step_state E (xc_state c) c) as Kst. rewrite Hs in Kst. cbn [snd] in Kst.
  destruct r1 as [st|x|m]; [|injection H as _ <-; rewrite <- Kst; reflexivity..].
  destruct (cstate13_eqb (xc_state c) st); [injection H as _ <-; rewrite <- Kst; reflexivity|].
  unfold modify in H. apply IH in H. rewrite H. cbn [xc_state set_xc_state].
  destruct (N.lt_ge_cases (xr (xc_state c)) 11) as [L|L].
  - pose proof (x_open_next E (xc_state c) L c) as R. rewrite Hs in R. cbn [fst] in R. lia.
  - pose proof (x_late_next E (xc_state c)) as R. specialize (R ltac:(intros K; rewrite K in L; cbn in L; lia) ltac:(lia) c).
    rewrite Hs in R. cbn [fst] in R. destruct R as [-> |[Q1 Q2]]; [reflexivity|rewrite Q1, Q2; reflexivity].
Qed.
Lemma closed_progress_y E n : forall c r c', y_progress E n c = (r, c') -> (11 <=? yr (xs_state c')) = (11 <=? yr (xs_state c)).
Proof.
  induction n as [|n IH]; intros c r c' H; cbn [y_progress] in H; [injection H as _ <-; reflexivity|].
  unfold bind, get in H. destruct (y_step E (xs_state c) c) as [r1 c1] eqn:Hs.
  pose proof (y_step_state E (xs_state c) c) as Kst. rewrite Hs in Kst. cbn [snd] in Kst.
  destruct r1 as [st|x|m]; [|injection H as _ <-; rewrite <- Kst; reflexivity..].
  destruct (sstate13_eqb (xs_state c) st); [injection H as _ <-; rewrite <- Kst; reflexivity|].
  unfold modify in H. apply IH in H. rewrite H. cbn [xs_state set_xs_state].
  destruct (N.lt_ge_cases (yr (xs_state c)) 11) as [L|L].
  - pose proof (y_open_next E (xs_state c) L c) as R. rewrite Hs in R. cbn [fst] in R. lia.
  - pose proof (y_late_next E (xs_state c)) as R. specialize (R ltac:(intros K; rewrite K in L; cbn in L; lia) ltac:(lia) c).
    rewrite Hs in R. cbn [fst] in R. destruct R as [-> |[Q1 Q2]]; [reflexivity|rewrite Q1, Q2; reflexivity].
Qed.

(** The calls other than [close] leave this alone. *)
Definition SC (a b : End13) : Prop := end_closed13 b = end_closed13 a.
Lemma sc_x {A} (m : M Eng13 A) c : xc_state (snd (xeng m c)) = xc_state c.
Proof. unfold xeng, zoom. destruct (m (xc_eng c)). reflexivity. Qed.
Lemma sc_y {A} (m : M Eng13 A) c : xs_state (snd (yeng m c)) = xs_state c.
Proof. unfold yeng, zoom. destruct (m (xs_eng c)). reflexivity. Qed.
Lemma sc_draw E c : xc_state (draw_random13 E c) = xc_state c.
Proof.
  unfold draw_random13. destruct (xc_random c); [reflexivity|]. unfold bind. pose proof (sc_x (rand_bytes13 E 32) c) as K.
  destruct (xeng (rand_bytes13 E 32) c) as [[v|x|n] d]; exact K.
Qed.
Lemma sc_draws E c : xs_state (draw_random13s E c) = xs_state c.
Proof.
  unfold draw_random13s. destruct (xs_random c); [reflexivity|]. unfold bind. pose proof (sc_y (rand_bytes13 E 32) c) as K.
  destruct (yeng (rand_bytes13 E 32) c) as [[v|x|n] d]; exact K.
Qed.
Lemma snd_public {S} (m : M S unit) s : snd (public m s) = snd (m s).
Proof. unfold public. destruct (m s) as [[u|[]|n] s']; reflexivity. Qed.
Lemma snd_no_out {S} (m : M S unit) s : snd (no_output m s) = snd (m s).
Proof. unfold no_output, bind. destruct (m s) as [[u|x|n] s']; reflexivity. Qed.
Lemma snd_seq_x E {A} (m : XM A) c : (11 <=? xr (xc_state (snd (m c)))) = (11 <=? xr (xc_state c)) ->
  (11 <=? xr (xc_state (snd ((m ;;; x_make_progress E) c)))) = (11 <=? xr (xc_state c)).
Proof.
  intros H. unfold bind. destruct (m c) as [[u|x|n] c1]; try exact H. cbn [snd] in H. rewrite <- H.
  unfold x_make_progress. destruct (x_progress E 40 c1) as [r c2] eqn:Hp. exact (closed_progress_x _ _ _ _ _ Hp).
Qed.
Lemma closed_stays13 E k s r s' : end13_call E k s = (r, s') -> k <> Close -> end_closed13 s' = end_closed13 s.
Proof.
  intros H NC. destruct s as [c|c]; cbn [end13_call] in H.
  - destruct (client13_call E k c) as [r0 c'] eqn:Hc. injection H as <- <-. cbn [end_closed13].
    assert (G : (11 <=? xr (xc_state (snd (client13_call E k c)))) = (11 <=? xr (xc_state c))); [|rewrite Hc in G; exact G].
    clear Hc r0 c'. destruct k as [p|cap|now|d|]; [| | | |elim NC; reflexivity]; cbn [client13_call]; rewrite ?snd_no_out.
    + unfold client13_handle_packet. rewrite snd_public. apply snd_seq_x. rewrite sc_x. reflexivity.
    + unfold some_output, client13_poll_output. unfold bind at 1 2, get at 1. destruct (xc_events c) as [|ev l].
      * pose proof (sc_x (eng13_poll_output cap (xc_now c)) c) as K. destruct (xeng (eng13_poll_output cap (xc_now c)) c) as [[o|x|n] c1]; cbn [snd ret] in *; rewrite K; reflexivity.
      * unfold bind, modify. destruct (event12_output ev cap (xc_certs c) (set_xc_events l c)) as [ro c1] eqn:Ho. apply event_no_packet in Ho.
        destruct Ho as [-> _]. destruct ro; reflexivity.
    + rewrite tick_draw. unfold bind. pose proof (sc_x (eng13_handle_timeout E now) (draw_random13 E (set_xc_now now c))) as K.
      rewrite sc_draw in K. destruct (xeng (eng13_handle_timeout E now) (draw_random13 E (set_xc_now now c))) as [[[]|x|n] c1]; cbn [snd] in *; try (rewrite K; reflexivity).
      rewrite snd_public. unfold x_make_progress. destruct (x_progress E 40 c1) as [r2 c2] eqn:Hp. apply closed_progress_x in Hp. cbn [snd]. rewrite Hp, K. reflexivity.
    + unfold client13_send, bind, get. destruct (xc_state c) eqn:Hs; try (cbn; rewrite Hs; reflexivity). rewrite sc_x, Hs. reflexivity.
  - destruct (server13_call E k c) as [r0 c'] eqn:Hc. injection H as <- <-. cbn [end_closed13].
    assert (G : (11 <=? yr (xs_state (snd (server13_call E k c)))) = (11 <=? yr (xs_state c))); [|rewrite Hc in G; exact G].
    clear Hc r0 c'. destruct k as [p|cap|now|d|]; [| | | |elim NC; reflexivity]; cbn [server13_call]; rewrite ?snd_no_out.
    + assert (P : forall c0, (11 <=? yr (xs_state (snd (public (y_process E p) c0)))) = (11 <=? yr (xs_state c0))).
      { intros c0. rewrite snd_public. unfold y_process, bind. pose proof (sc_y (eng13_parse_packet E p) c0) as K.
        destruct (yeng (eng13_parse_packet E p) c0) as [[[]|x|n] c1]; cbn [snd] in *; try (rewrite K; reflexivity).
        unfold y_make_progress. destruct (y_progress E 40 c1) as [r2 c2] eqn:Hp. apply closed_progress_y in Hp.
        rewrite <- K, <- Hp. destruct r2 as [[]|x|n]; try reflexivity. unfold get, when. destruct (_ && _); reflexivity. }
      unfold server13_handle_packet, bind, get. destruct (xs_auto c && _); [|apply P].
      destruct (MAX_RETAINED <=? len (xs_hellos c)); [reflexivity|]. unfold modify. exact (P (set_xs_hellos (xs_hellos c ++ [p]) c)).
    + unfold some_output, server13_poll_output. unfold bind at 1 2, get at 1. destruct (xs_events c) as [|ev l].
      * pose proof (sc_y (eng13_poll_output cap (xs_now c)) c) as K. destruct (yeng (eng13_poll_output cap (xs_now c)) c) as [[o|x|n] c1]; cbn [snd ret] in *; rewrite K; reflexivity.
      * unfold bind, modify. destruct (event12_output ev cap (xs_certs c) (set_xs_events l c)) as [ro c1] eqn:Ho. apply event_no_packet in Ho.
        destruct Ho as [-> _]. destruct ro; reflexivity.
    + rewrite tick_draws. unfold bind. pose proof (sc_y (eng13_handle_timeout E now) (draw_random13s E (set_xs_now now c))) as K.
      rewrite sc_draws in K. destruct (yeng (eng13_handle_timeout E now) (draw_random13s E (set_xs_now now c))) as [[[]|x|n] c1]; cbn [snd] in *; try (rewrite K; reflexivity).
      rewrite snd_public. unfold y_make_progress. destruct (y_progress E 40 c1) as [r2 c2] eqn:Hp. apply closed_progress_y in Hp. cbn [snd]. rewrite Hp, K. reflexivity.
    + unfold server13_send, bind, get. destruct (xs_state c) eqn:Hs; try (cbn; rewrite Hs; reflexivity). rewrite sc_y, Hs. reflexivity.
Qed.
Lemma close_call13 E s r s' : end13_call E Close s = (r, s') ->
  (r = Ok None /\ end_closed13 s' = true) \/ ((forall o, r <> Ok o) /\ end_closed13 s' = end_closed13 s).
Proof.
  destruct s as [c|c]; cbn [end13_call client13_call server13_call]; unfold no_output, client13_close, server13_close, bind, get, xeng, yeng, zoom, eng13_abort, cancel_flights, modify, ret.
  - destruct (xc_state c) eqn:Hs; try (intros [= <- <-]; left; split; [reflexivity|cbn [end_closed13 xc_state set_xc_state]; rewrite ?Hs; reflexivity]).
    destruct (create_cipher13 _ _ _ _ _ _) as [[u|x|n] e]; intros [= <- <-]; cbn [end_closed13 xc_state set_xc_state set_xc_eng];
      [left; split; reflexivity|right; split; [discriminate|rewrite Hs; reflexivity]..].
  - destruct (xs_state c) eqn:Hs; try (intros [= <- <-]; left; split; [reflexivity|cbn [end_closed13 xs_state set_xs_state]; rewrite ?Hs; reflexivity]).
    destruct (create_cipher13 _ _ _ _ _ _) as [[u|x|n] e]; intros [= <- <-]; cbn [end_closed13 xs_state set_xs_state set_xs_eng];
      [left; split; reflexivity|right; split; [discriminate|rewrite Hs; reflexivity]..].
Qed.
Lemma start_open13 E cfg cert key s : start13 E cfg cert key s -> end_closed13 s = false.
Proof.
  intros [s0 Hf|random fragment kx now c Hc].
  - apply fresh13_shape in Hf. destruct Hf as (_ & _ & F). destruct s0 as [c|c]; cbn [end_closed13]; destruct F as (-> & _); reflexivity.
  - rewrite from_hybrid in Hc.
    destruct (client13_call E (Tick now) (hybrid_client E cfg cert key random fragment kx now)) as [r c1] eqn:H1.
    assert (c1 = c) as -> by (revert H1; cbn [client13_call]; unfold no_output, bind; rewrite Hc; intros [= <- <-]; reflexivity).
    assert (H2 : end13_call E (Tick now) (XC (hybrid_client E cfg cert key random fragment kx now)) = (r, XC c)) by (cbn [end13_call]; rewrite H1; reflexivity).
    rewrite (closed_stays13 _ _ _ _ _ H2) by discriminate. reflexivity.
Qed.
(** Being closed means that [close] returned Ok. *)
Lemma closed_iff E cfg cert key h s : reach13 E cfg cert key h s -> (end_closed13 s = true <-> In (Close, Ok None) h).
Proof.
  intros (s0 & H0 & H). apply start_open13 in H0. induction H as [|h s k r s' H IH NP C]; [rewrite H0; split; [discriminate|intros []]|].
  specialize (IH). destruct (match k with Close => true | _ => false end) eqn:Hk.
  - destruct k; try discriminate. rewrite in_app_iff. cbn [In]. destruct (close_call13 _ _ _ _ C) as [[-> K]|[K1 K2]].
    + rewrite K. split; auto.
    + rewrite K2, IH. split; [auto|]. intros [K|[K|[]]]; [exact K|]. injection K as K. elim (K1 _ K).
  - assert (NC : k <> Close) by (intros ->; discriminate). rewrite (closed_stays13 _ _ _ _ _ C NC), IH, in_app_iff. cbn [In].
    split; [auto|]. intros [K|[K|[]]]; [exact K|]. injection K as K _. elim (NC K).
Qed.

(** After a [close] that returned Ok, whatever else happened since: writes fail
    with ConnectionClosed, another [close] returns Ok, and neither changes
    anything. *)
Theorem C43_close_is_final13 : forall E cfg cert key h s,
  reach13 E cfg cert key h s -> In (Close, Ok None) h ->
  (forall d, end13_call E (Send d) s = (Err EClosed, s)) /\ end13_call E Close s = (Ok None, s).
Proof.
  intros E cfg cert key h s HR HC. apply (closed_iff _ _ _ _ _ _ HR) in HC. clear HR.
  destruct s as [c|c]; cbn [end_closed13] in HC; split; [intros d| |intros d|];
    cbn [end13_call client13_call server13_call]; unfold no_output, client13_send, client13_close, server13_send, server13_close, bind, get, fail, ret;
    [destruct (xc_state c)|destruct (xc_state c)|destruct (xs_state c)|destruct (xs_state c)]; try discriminate HC; reflexivity.
Qed.
Print Assumptions C43_close_is_final13.

(** The alerts an endpoint ever produces are one protected close_notify (level 1,
    description 0) if [close] returned Ok and the handshake had completed, and none
    otherwise. *)
Theorem C43_one_close_notify13 : forall E cfg cert key h s, reach13 E cfg cert key h s ->
  exists zs, produced13 E h s zs /\
    let alerts := filter (fun z => z_type z =? CT_ALERT) zs in
    (In (Close, Ok None) h /\ was_connected13 h s -> exists z, alerts = [z] /\ z_key z <> None /\ z_frag z = close_notify13) /\
    (~ (In (Close, Ok None) h /\ was_connected13 h s) -> alerts = []).
Proof.
  intros E cfg cert key h s HR. destruct (account13 E cfg cert key h s HR) as (U & V & F1 & F2 & F3 & F4 & _).
  destruct (produced_of E h s U F1) as (zs & P1 & _ & P2 & P3). exists zs. split; [exact P1|]. cbv zeta.
  rewrite F4 in P2. unfold contents13 in P2. rewrite <- (closed_iff _ _ _ _ _ _ HR), <- F2. split.
  - intros [K1 K2]. rewrite K1, K2 in P2. cbn [andb] in P2. destruct (filter (fun z => z_type z =? CT_ALERT) zs) as [|z l] eqn:Hf; [discriminate|]. destruct l; [|discriminate].
    exists z. split; [reflexivity|]. injection P2 as P2. split; [|exact P2].
    assert (Hz : In z (filter (fun z => z_type z =? CT_ALERT) zs)) by (rewrite Hf; left; reflexivity).
    apply filter_In in Hz. destruct Hz as [Hz1 Hz2]. apply P3; [exact Hz1|]. right. apply N.eqb_eq, Hz2.
  - intros N. destruct (end_closed13 s), V; try (cbn [andb] in P2; destruct (filter _ zs); [reflexivity|discriminate]).
    elim N. split; reflexivity.
Qed.
Print Assumptions C43_one_close_notify13.

Lemma uc_closed : end_closed13 (snd uc_run) = true.
Proof. vm_compute. reflexivity. Qed.
Example C43_case13 : In (Close, Ok None) (fst uc_run) /\ was_connected13 (fst uc_run) (snd uc_run).
Proof.
  split; [|exact (proj1 (proj2 (proj2 C42_case13)))].
  exact (proj1 (closed_iff toy config_default [48; 7] (toy_key 7) (fst uc_run) (snd uc_run) uc_reach) uc_closed).
Qed.

(** Without [calm] C42 is false: if the writes held back do not fit the send queue when
    the handshake completes, the call that completes it returns an error, the endpoint
    is connected and the writes are gone, because the list of writes is taken before the
    first of them is sent (dtls13/client.rs:1089-1098): fewer bytes were ever handed out or
    queued than were accepted. Here the send queue holds one datagram. *)
Definition cfg_narrow : Config := mkConfig 1150 30 1 true true 1000000000 4 40000000000 (2 ^ 23) None None None None.
Definition full_run : Log * End13 :=
  replay13 toy (Send (repeat 1 1100) :: Send (repeat 2 1100) :: Send (repeat 3 1100) :: xc_calls) (new_client13 toy cfg_narrow [48; 7] (toy_key 7) 0).
Lemma full_reach : reach13 toy cfg_narrow [48; 7] (toy_key 7) (fst full_run) (snd full_run).
Proof. apply run13_reach; [apply new_client13_start|vm_compute; reflexivity]. Qed.
Lemma full_facts : quiet (fst full_run) = true /\ 
  existsb (fun o => match o with OConnected => true | _ => false end) (outputs (fst full_run)) = true /\ 
  end_queued13 (snd full_run) = [] /\
  (len (concat (datagrams (outputs (fst full_run)) ++ g_tx (end13_eng (snd full_run)))) <? len (concat (writes (fst full_run)))) = true.
Proof. repeat split; vm_compute; reflexivity. Qed.
Theorem C42_write_lost13_refuted : exists E cfg cert key h s,
  reach13 E cfg cert key h s /\ Forall (fun x => ~ panicked (snd x)) h /\ was_connected13 h s /\ end_queued13 s = [] /\
  len (concat (datagrams (outputs h) ++ g_tx (end13_eng s))) < len (concat (writes h)).
Proof.
  exists toy, cfg_narrow, [48; 7], (toy_key 7), (fst full_run), (snd full_run). split; [exact full_reach|].
  destruct full_facts as (F1 & F2 & F3 & F4). split; [apply quiet_forall; exact F1|]. split; [apply saw_connected; exact F2|].
  split; [exact F3|]. apply N.ltb_lt. exact F4.
Qed.
Print Assumptions C42_write_lost13_refuted.
