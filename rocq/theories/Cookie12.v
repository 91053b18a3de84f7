(** Proof that a DTLS 1.2 server with the cookie enabled sends nothing but
    HelloVerifyRequest until a ClientHello with the right cookie arrives. *)
From Verif Require Import Prelude PreludeFacts Types Codec Codec12 Record12 Monad MonadFacts Timer Env
  Config Aead Prf Window Context12 Engine12 Client12 Server12 Engine12Frame Send12Proofs History12
  History12Facts EndFrame12 Queue12Proofs View12 Poll12Proofs Evidence12 ClientInv12 ClientStep12 ServerInv12 ServerStep12 Events12 Auth12 Timer12Proofs Tx12Proofs Phase12.

(** A datagram made of unprotected handshake records, each with a fragment of a
    HelloVerifyRequest. *)
Definition hvr_datagram (d : bytes) : Prop :=
  exists rs : list (N * bytes), d = concat (map (fun x => s_rec12 CT_HS V_DTLS12 0 (fst x) (snd x)) rs) /\
    Forall (fun x => hd 0 (snd x) = MT_HelloVerifyRequest) rs.
Definition hvr_entry (x : Entry12) : Prop := let '(ct, ep, f) := x in ct = CT_HS /\ ep = 0 /\ hd 0 f = MT_HelloVerifyRequest.
Definition HV (em : list bytes) (e : Eng12) : Prop := Forall hvr_datagram (em ++ en_tx e) /\ Forall hvr_entry (en_saved e).
Definition RV em (a b : Eng12) : Prop := HV em a -> HV em b.
Lemma RV_po em : preorder (RV em).
Proof. split; unfold RV; auto. Qed.

Lemma hv_cri E em save fn f : hd 0 f = MT_HelloVerifyRequest -> pres (RV em) (create_record_inner E CT_HS 0 save fn f).
Proof.
  intros Hf s. apply (wp_mono _ _ (fun _ s' => HV em s -> HV em s') s (create_record_spec E CT_HS 0 save fn f s)).
  intros r s' (o & sv & H) [H1 H2].
  assert (S1 : forall sv, sv = en_saved s \/ save = true /\ sv = en_saved s ++ [(CT_HS, 0, f)] -> Forall hvr_entry sv).
  { intros sv' [-> | [_ ->]]; [exact H2|]. apply Forall_app. split; [exact H2|]. constructor; [|constructor]. repeat split. exact Hf. }
  destruct r as [u|x|n]; [|destruct H as (A & -> & _); split; [exact H1|exact (S1 _ A)]..].
  destruct H as (A & _ & frag & P & _ & ->). unfold payload_of in P. cbn [N.eqb] in P. subst frag.
  split; [|apply S1; subst sv; destruct save; auto]. cbn [N.eqb]. set (n := cur_seq 0 s). clearbody n. cbn [en_tx set_en_tx].
  destruct (can_append _ _ _) eqn:Ha.
  - apply can_append_nonnil in Ha. destruct (snoc_case _ Ha) as (q & b & Hq).
    rewrite Hq in *. rewrite append_last_snoc. rewrite app_assoc in *. apply Forall_app in H1. destruct H1 as [B1 B2]. apply Forall_app. split; [exact B1|].
    inversion B2 as [|? ? (rs & C1 & C2) _]; subst. constructor; [|constructor]. exists (rs ++ [(n, f)]).
    rewrite map_app, concat_app. cbn [map concat fst snd]. rewrite app_nil_r. split; [reflexivity|]. apply Forall_app. split; [exact C2|]. constructor; [exact Hf|constructor].
  - rewrite app_assoc. apply Forall_app. split; [exact H1|]. constructor; [|constructor].
    exists [(n, f)]. split; [cbn [map concat fst snd]; rewrite app_nil_r; reflexivity|constructor; [exact Hf|constructor]].
Qed.
Lemma hv_resend_loop E em rp : forall es fs, Forall hvr_entry es -> pres (RV em) (resend_loop E rp fs es).
Proof.
  induction es as [|[[ct ep] f] es IH]; intros fs H; cbn [resend_loop]; [apply pres_ret, RV_po|].
  inversion H as [|? ? K H']; subst. unfold hvr_entry in K. destruct K as (-> & -> & Hf). apply pres_bind; [apply RV_po|apply hv_cri, Hf|intros _; apply IH, H'].
Qed.
Lemma hv_drop em e : HV em e -> HV em (set_en_tx [] e).
Proof. intros [A B]. split; [|exact B]. cbn. apply Forall_app in A. rewrite app_nil_r. apply A. Qed.
Lemma hv_resend E em : pres (RV em) (flight_resend E).
Proof.
  intros s H. unfold flight_resend, bind, get. destruct H as [H1 H2].
  destruct (negb (en_release s)); cbn [when]; unfold modify, ret; apply hv_resend_loop; try exact H2; [apply hv_drop|]; split; assumption.
Qed.
Lemma hv_flight_begin E em : pres (RV em) (flight_begin E).
Proof. intros s [A B]. split; [exact A|constructor]. Qed.
Ltac hvpre := first [apply RV_po | intros; intro; assumption | apply hv_resend].
Lemma hv_io E em : io_frame E (RV em).
Proof.
  constructor.
  - intros v s H. exact H.
  - intros v s H. exact H.
  - apply pres_modify. intros s [A B]. split; [|constructor]. cbn. apply Forall_app in A. rewrite app_nil_r. apply A.
  - intros p. apply fr3_parse_packet; hvpre.
  - intros cap now s [A B]. pose proof (wire_poll_tx cap now s) as K. cbv zeta in K. destruct K as (K1 & K2 & _).
    split; [|rewrite K2; exact B]. destruct K1 as [K1|(p & K1)]; [rewrite K1; exact A|]. rewrite K1 in A. apply Forall_app in A. destruct A as [A1 A2].
    apply Forall_app. split; [exact A1|]. inversion A2; assumption.
  - intros now. apply fr3_handle_timeout; hvpre.
Qed.

Lemma hs_first mt a b c d x : mt < 256 -> hd 0 (s_hs_header mt a b c d ++ x) = mt.
Proof. intros H. unfold s_hs_header, be. cbn. apply N.mod_small, H. Qed.
Lemma hv_create E em mk : pres (RV em) mk -> pres (RV em) (create_handshake E MT_HelloVerifyRequest mk).
Proof.
  pose proof (RV_po em) as PO. intros H. unfold create_handshake.
  assert (G : forall fuel total seq prot off rest, pres (RV em) (frag_loop E fuel MT_HelloVerifyRequest total seq 0 prot off rest)).
  { induction fuel as [|fuel IH]; intros; cbn [frag_loop]; presauto PO ltac:(first [apply IH | apply hv_cri, hs_first; reflexivity]). }
  presauto PO ltac:(first [exact H | apply G | apply pres_modify; intros ? K; exact K
    | unfold create_record; apply hv_cri; rewrite <- (app_nil_r (s_hs_header _ _ _ _ _)); apply hs_first; reflexivity]).
Qed.
Lemma hv_await E em : pres (History12Facts.RS (RV em)) (s_await_client_hello E).
Proof.
  pose proof (RV_po em) as PO. assert (POS : preorder (History12Facts.RS (RV em))) by (split; unfold History12Facts.RS, RV; auto).
  unfold s_await_client_hello.
  presauto POS ltac:(first
    [ apply (lf_seng (RV em)); first [apply fr_next_handshake; hvpre | apply hv_flight_begin
        | apply hv_create; apply pres_ret, PO | apply fr_reset_server; hvpre | apply fr_set_suite; hvpre ]
    | apply pres_modify; intros ? K; exact K ]).
Qed.

Definition anything (a b : Eng12) : Prop := True -> True.
Lemma any_ns E : ns_frame E anything.
Proof. constructor; repeat intro; try exact I. split; repeat intro; exact I. Qed.
Lemma any_io E : io_frame E anything.
Proof. constructor; repeat intro; exact I. Qed.

Lemma call_role E k s r s' : end12_call E k s = (r, s') -> match s, s' with Cl _, Cl _ | Sv _, Sv _ => True | _, _ => False end.
Proof. destruct s as [c|c]; cbn [end12_call]; [destruct (client12_call E k c)|destruct (server12_call E k c)]; intros [= <- <-]; exact I. Qed.
Lemma server_call_of E k c r c' : end12_call E k (Sv c) = (r, Sv c') -> server12_call E k c = (r, c').
Proof. cbn [end12_call]. destruct (server12_call E k c). intros [= <- <-]. reflexivity. Qed.
Lemma poll_state E cap c r c' : end12_call E (Poll cap) (Sv c) = (r, Sv c') ->
  sv_state c' = sv_state c /\ en_transcript (sv_eng c') = en_transcript (sv_eng c) /\ sv_secret c' = sv_secret c.
Proof.
  rewrite poll_unfold. cbn [end_events end_certs end_now end_eng]. intros H.
  assert (K : forall l x, Sv x = set_end_events l (Sv c) -> sv_state x = sv_state c /\ en_transcript (sv_eng x) = en_transcript (sv_eng c) /\ sv_secret x = sv_secret c).
  { intros l x Hx. injection Hx as ->. repeat split. }
  destruct (sv_events c) as [|[| |m p] l]; try (apply (f_equal snd) in H; cbn [snd] in H; eapply K; symmetry; exact H).
  pose proof (v_poll cap (sv_now c) (sv_eng c)) as V. destruct (eng12_poll_output _ _ _) as [x e]. injection H as _ <-. cbn [snd] in V.
  repeat split. cbn. apply V.
Qed.
Lemma await_hv E cfg auth h c : reach12 E cfg auth h (Sv c) -> sv_state c = SS_AwaitClientHello -> HV (packets_of (outputs h)) (sv_eng c).
Proof.
  intros (s0 & H0 & H). enough (G : forall s, history E s0 h s -> match s with Sv c => sv_state c = SS_AwaitClientHello -> HV (packets_of (outputs h)) (sv_eng c) | Cl _ => True end).
  { exact (G _ H). }
  clear c H. intros s H. induction H as [|h s k r s' H IH NP C].
  - destruct s0 as [c|c]; [exact I|]. intros _. inversion H0 as [now| |c0 Hc]; subst; clear -Hc || clear.
    + split; constructor.
    + assert (K : forall s, start12 E cfg auth s -> en_tx (end_eng s) = [] /\ en_saved (end_eng s) = []).
      { intros s. induction 1; cbn in *; auto. }
      destruct (K _ Hc) as [K1 K2]. cbn in K1, K2 |- *. unfold HV. cbn. rewrite K1, K2. split; constructor.
  - pose proof (call_role _ _ _ _ _ C) as CR. destruct s as [x|c], s' as [x'|c']; try contradiction; [exact I|]. intros Ha.
    destruct (match k with Poll _ => true | _ => false end) eqn:Hk.
    + destruct k; try discriminate. rewrite packets_snoc. destruct (poll_state _ _ _ _ _ C) as (S & _). rewrite S in Ha.
      refine (wire_poll E HV _ _ _ _ _ _ _ _ C (IH Ha)).
      * intros em v x K. exact K.
      * intros em v x K. exact K.
      * intros em p l x Hx [K1 K2]. split; [|exact K2]. cbn. rewrite <- app_assoc. cbn [app]. rewrite <- Hx. exact K1.
    + assert (NPk : forall cap, k <> Poll cap) by (intros cap ->; discriminate).
      rewrite packets_snoc, (nonpoll_no_packet E k _ r _ NPk C), app_nil_r. apply server_call_of in C.
      pose proof (ph_server_call E (HV (packets_of (outputs h))) (fun _ => True) (fun _ _ => I) (hv_await E _) (hv_io E _) (any_ns E) (any_io E) k c) as P.
      rewrite C in P. cbn [snd] in P. unfold ph_s in P. rewrite Ha in P. cbn [s_rank N.eqb] in P. apply P.
      destruct (N.eqb_spec (s_rank (sv_state c)) 0) as [Hz|]; [|exact I]. apply IH. destruct (sv_state c); [reflexivity|discriminate Hz..].
Qed.

Definition cookie_seen (E : Env) (c : Server12) : Prop :=
  exists ch, client_hello_ok (en_transcript (sv_eng c)) ch /\ cookie_ok E (sv_secret c) ch.
Lemma past_hello E c : inv_server E c -> c_cookie (en_cfg (sv_eng c)) = true -> sv_state c <> SS_AwaitClientHello ->
  (sv_state c = SS_Closed -> en_release (sv_eng c) = true) -> cookie_seen E c.
Proof.
  intros [_ F] Hc Hs Hr. destruct (g_hello _ _ _ F) as (ch & cs & H1 & H2 & H3 & H4 & H5 & H6 & H7 & H8 & H9 & H10 & H11).
  - unfold phase_s. destruct (sv_state c); try (cbn [s_rank]; lia); [congruence|]. rewrite Hr by reflexivity. lia.
  - exists ch. split; [exact H1|apply H11, Hc].
Qed.
(** A closed server only lets its timers run and its queues be emptied. *)
Lemma closed_call E R k c r c' : preorder R -> io_frame E R -> sv_state c = SS_Closed -> server12_call E k c = (r, c') ->
  R (sv_eng c) (sv_eng c') /\ sv_state c' = SS_Closed /\ sv_secret c' = sv_secret c.
Proof.
  intros PO F Hs. set (Q := fun a b : Server12 => sv_state a = SS_Closed -> R (sv_eng a) (sv_eng b) /\ sv_state b = SS_Closed /\ sv_secret b = sv_secret a).
  assert (QP : preorder Q).
  { split; unfold Q; [intros a Ha; repeat split; [apply PO|exact Ha]|]. intros a b d A B Ha. destruct (A Ha) as (A1 & A2 & A3). destruct (B A2) as (B1 & B2 & B3).
    split; [eapply PO; eauto|]. split; [exact B2|congruence]. }
  assert (L : forall A (m : M Eng12 A), pres R m -> pres Q (seng m)).
  { intros A m P x Hx. unfold seng, zoom. specialize (P (sv_eng x)). destruct (m (sv_eng x)). repeat split; [exact P|exact Hx]. }
  assert (Pg : forall n, pres Q (s_progress E n)).
  { induction n as [|n IH]; intros x Hx; [repeat split; [apply PO|exact Hx]|]. cbn [s_progress]. unfold bind, get. rewrite Hx. cbn [s_step].
    unfold ret. cbn. repeat split; [apply PO|exact Hx]. }
  enough (P : pres Q (server12_call E k)) by (intros H; specialize (P c Hs); rewrite H in P; exact P).
  destruct k as [p|cap|now|d|]; cbn [server12_call]; unfold no_output, some_output.
  - unfold server12_handle_packet, s_make_progress. presauto QP ltac:(first [apply lf_public | apply Pg | apply L; apply F]).
  - unfold server12_poll_output. presauto QP ltac:(first [apply (lf_event _ QP) | apply pres_modify; intros ? K; repeat split; [apply PO|exact K] | apply L; apply F]).
  - unfold server12_handle_timeout, s_make_progress.
    presauto QP ltac:(first [apply lf_public | apply Pg | apply pres_modify; intros ? K; repeat split; [apply PO|exact K]
      | apply L; first [apply F | apply fr_random_with_time; [exact PO|apply F]]]).
  - intros x Hx. unfold server12_send, bind, get. rewrite Hx. unfold fail. cbn. repeat split; [apply PO|exact Hx].
  - intros x Hx. unfold server12_close, bind, get. rewrite Hx. unfold ret. cbn. repeat split; [apply PO|exact Hx].
Qed.
Definition same_T (a b : Eng12) : Prop := en_transcript b = en_transcript a.
Lemma same_T_po : preorder same_T. Proof. split; unfold same_T; congruence. Qed.
Lemma same_T_io E : io_frame E same_T.
Proof.
  constructor; try (intros; reflexivity).
  - intros s. reflexivity.
  - intros p s. exact (vs_transcript _ _ (v_parse E p s)).
  - intros cap now s. exact (vs_transcript _ _ (v_poll cap now s)).
  - intros now s. apply (v_handle_timeout E now s).
Qed.

Theorem nothing_before_cookie E cfg auth h c : reach12 E cfg auth h (Sv c) -> c_cookie cfg = true ->
  cookie_seen E c \/ HV (packets_of (outputs h)) (sv_eng c).
Proof.
  intros (s0 & H0 & H) Hck. enough (G : forall s, history E s0 h s -> match s with Sv c => cookie_seen E c \/ HV (packets_of (outputs h)) (sv_eng c) | Cl _ => True end).
  { exact (G _ H). }
  clear c H. intros s H. induction H as [|h s k r s' H IH NP C].
  - destruct s0 as [c|c]; [exact I|]. right. apply (await_hv E cfg auth []); [exists (Sv c); split; [exact H0|constructor]|].
    inversion H0; reflexivity.
  - pose proof (call_role _ _ _ _ _ C) as CR. destruct s as [x|c], s' as [x'|c']; try contradiction; [exact I|].
    assert (HR : reach12 E cfg auth h (Sv c)) by (exists s0; auto).
    assert (HR' : reach12 E cfg auth (h ++ [(k, r)]) (Sv c')) by (exists s0; split; [exact H0|econstructor; eauto]).
    pose proof (reach_end_inv E _ _ _ _ HR) as V. pose proof (reach_end_inv E _ _ _ _ HR') as V'. cbn [inv_end] in V, V'.
    assert (Hc : c_cookie (en_cfg (sv_eng c)) = true) by (pose proof (proj1 (reach_auth _ _ _ _ _ HR)) as K; cbn [end_eng] in K; rewrite K; exact Hck).
    assert (Hc' : c_cookie (en_cfg (sv_eng c')) = true) by (pose proof (proj1 (reach_auth _ _ _ _ _ HR')) as K; cbn [end_eng] in K; rewrite K; exact Hck).
    destruct (sstate12_eq_dec (sv_state c') SS_AwaitClientHello) as [Ha|Ha]; [right; exact (await_hv _ _ _ _ _ HR' Ha)|].
    destruct (sstate12_eq_dec (sv_state c') SS_Closed) as [Hd|Hd]; [|left; apply past_hello; auto; congruence].
    destruct (sstate12_eq_dec (sv_state c) SS_Closed) as [He|He].
    + pose proof (server_call_of _ _ _ _ _ C) as C1.
      destruct (closed_call E same_T k c r c' same_T_po (same_T_io E) He C1) as (T1 & _ & T3). destruct IH as [(ch & I1 & I2)|I1].
      * left. exists ch. rewrite T1, T3. auto.
      * right. destruct (match k with Poll _ => true | _ => false end) eqn:Hk.
        -- destruct k; try discriminate. rewrite packets_snoc. refine (wire_poll E HV _ _ _ _ _ _ _ _ C I1).
           ++ intros em v x K. exact K.
           ++ intros em v x K. exact K.
           ++ intros em p l x Hx [K1 K2]. split; [|exact K2]. cbn. rewrite <- app_assoc. cbn [app]. rewrite <- Hx. exact K1.
        -- assert (NPk : forall cap, k <> Poll cap) by (intros cap ->; discriminate).
           rewrite packets_snoc, (nonpoll_no_packet E k _ r _ NPk C), app_nil_r.
           exact (proj1 (closed_call E _ k c r c' (RV_po _) (hv_io E _) He C1) I1).
    + destruct (match k with Close => true | _ => false end) eqn:Hk.
      * destruct k; try discriminate. rewrite packets_snoc, (nonpoll_no_packet E Close _ r _ ltac:(discriminate) C), app_nil_r.
        apply server_call_of in C. cbn [server12_call] in C. unfold no_output, server12_close, bind, get in C.
        destruct (sv_state c) eqn:Hs; try congruence.
        1: { right. unfold seng, zoom, eng12_abort, modify, ret in C. injection C as _ <-. apply (io_abort _ _ (hv_io E _)). apply (await_hv _ _ _ _ _ HR Hs). }
        all: try (left; unfold seng, zoom, eng12_abort, modify, ret in C; injection C as _ <-;
          destruct (past_hello E c V Hc ltac:(congruence) ltac:(congruence)) as (ch & K1 & K2); exists ch; split; assumption).
        left. apply past_hello; auto. intros _. destruct V as [[T _] _]. rewrite Hs in T. destruct T as [_ T].
        pose proof (ef_create_record _ _ (rel_frame E) CT_ALERT 1 false [1; 0] (sv_eng c) T) as K. unfold seng, zoom in C.
        destruct (create_record E CT_ALERT 1 false [1; 0] (sv_eng c)) as [[a|x|x] e]; unfold modify, ret in C; injection C as _ <-; exact K.
      * left. apply past_hello; auto. intros _.
        assert (O : end_over (Sv c')) by (eapply (call_over E k (Sv c)); [intros ->; discriminate|exact V|intros K; cbn in K; congruence|exact C]).
        apply O. exact Hd.
Qed.
