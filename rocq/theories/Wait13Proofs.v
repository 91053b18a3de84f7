(** Proofs about the retransmission timer of a DTLS 1.3 endpoint that waits for its
    peer. *)
From Verif Require Import Prelude PreludeFacts Types Codec Codec12 Codec13 Record12 Record13 Env Config Aead Prf Monad MonadFacts
  Timer Window SeqRecon Engine12 Client12 Engine13 Client13 Server13 History12 History12Facts History13 Frame13 Lift13 Index13
  Send13Proofs Trace13 Trace13Proofs Poll13Proofs Out13 Timer12Proofs Wait12Proofs NoTime13 Timer13Proofs.

(** ** The back-off state *)

Definition bo_wf13 (E : Env) (e : Eng13) : Prop :=
  bo_start (g_bo e) = c_rto (g_cfg e) /\ bo_retries (g_bo e) = c_retries (g_cfg e) /\
  bo_left (g_bo e) <= c_retries (g_cfg e) /\
  bo_rto (g_bo e) = c_rto (g_cfg e) * 2 ^ (c_retries (g_cfg e) - bo_left (g_bo e)) /\
  exists t, bo_jitter (g_bo e) = e_jitter E t.
Definition Rbo13 (E : Env) (a b : Eng13) : Prop := g_cfg b = g_cfg a /\ (bo_wf13 E a -> bo_wf13 E b).
Lemma Rbo13_po E : preorder (Rbo13 E).
Proof. split; unfold Rbo13; [tauto|]. intros a b c [H1 H2] [H3 H4]. split; [congruence|tauto]. Qed.
Ltac bopre13 := first [exact (Rbo13_po _) | intros; split; [reflexivity|exact (fun H => H)]].

(** The backoff and the configuration stay. *)
Definition Rsb (a b : Eng13) : Prop := g_cfg b = g_cfg a /\ g_bo b = g_bo a.
Lemma Rsb_po : preorder Rsb.
Proof. split; unfold Rsb; [auto|]. intros a b c [-> ->] [-> ->]. auto. Qed.
Lemma Rsb_bo E a b : Rsb a b -> Rbo13 E a b.
Proof. intros [H1 H2]. split; [exact H1|]. unfold bo_wf13. rewrite H1, H2. auto. Qed.

Lemma bo_arm13 E now e : Rbo13 E e (arm13 now e).
Proof. unfold arm13. destruct (timeout_is_unarmed (g_connect e)); cbn; destruct (timeout_is_unarmed (g_flight e)); bopre13. Qed.

Definition rearm13 (E : Env) (now : N) (e : Eng13) : Eng13 :=
  let b := backoff_attempt (g_bo e) (e_jitter E (g_orc e)) in
  set_g_flight (Armed (now + backoff_rto b)) (set_g_bo b (set_g_orc (g_orc e + 1) e)).
Lemma bo_rearm13 E now e : backoff_can_retry (g_bo e) = true -> Rbo13 E e (rearm13 E now e).
Proof.
  intros Hr. unfold backoff_can_retry in Hr. split; [reflexivity|]. unfold rearm13, bo_wf13, backoff_attempt. cbn.
  replace (bo_left (g_bo e) =? 0) with false by lia.
  cbn [bo_start bo_retries bo_left bo_rto bo_jitter].
  intros (H1 & H2 & H3 & H4 & _). repeat split; try assumption; try lia.
  - rewrite H4.
    replace (c_retries (g_cfg e) - (bo_left (g_bo e) - 1)) with
      (N.succ (c_retries (g_cfg e) - bo_left (g_bo e))) by lia.
    rewrite N.pow_succ_r'. lia.
  - eexists. reflexivity.
Qed.

(** The end of [handle_timeout]: acknowledgements. *)
Definition ack_stage (E : Env) (now : N) : M Eng13 unit :=
  modify (maybe_schedule_ack now) ;;; maybe_flush_ack E now.
Lemma rest_unfold E now e : timeout_rest E now e =
  match g_flight e with
  | Armed f =>
    if f <=? now then
      if backoff_can_retry (g_bo e) then (flight_resend13 E ;;; ack_stage E now) (rearm13 E now e)
      else (Err (ETimeout TO_Handshake), e)
    else ack_stage E now e
  | _ => (Ok tt, e)
  end.
Proof.
  unfold timeout_rest, ack_stage. unfold bind at 1, get. destruct (g_flight e); try reflexivity.
  unfold bind at 1. destruct (_ <=? now); [|reflexivity]. destruct (backoff_can_retry _); reflexivity.
Qed.

Ltac sbpre := first [exact Rsb_po | intros; split; reflexivity | intros; assumption].
Lemma sb_resend E : pres Rsb (flight_resend13 E). Proof. fr13 sbpre. Qed.
Lemma sb_ack E now : pres Rsb (ack_stage E now).
Proof.
  unfold ack_stage. apply pres_bind; [exact Rsb_po| |intros _; fr13 sbpre].
  apply pres_modify. intro s. destruct (maybe_ack_set now s) as (d & ->). split; reflexivity.
Qed.

Lemma bo_timeout13 E now : pres (Rbo13 E) (eng13_handle_timeout E now).
Proof.
  intro e. rewrite timeout13_unfold. destruct (due _ _); [apply bo_arm13|]. eapply (Rbo13_po E); [apply (bo_arm13 E now)|].
  set (e1 := arm13 now e). rewrite rest_unfold. destruct (g_flight e1); try apply (Rbo13_po E).
  destruct (_ <=? now).
  - destruct (backoff_can_retry (g_bo e1)) eqn:Hr; [|apply (Rbo13_po E)].
    eapply (Rbo13_po E); [apply (bo_rearm13 E now e1 Hr)|]. apply Rsb_bo.
    apply (pres_bind _ Rsb_po); [apply sb_resend|intros _; apply sb_ack].
  - apply Rsb_bo, sb_ack.
Qed.
Lemma bo_begin13 E : pres (Rbo13 E) (flight_begin13 E).
Proof.
  intro s. unfold flight_begin13, draw13, bind, modify. cbn [fst snd]. split; [reflexivity|]. unfold bo_wf13. cbn.
  intros (H1 & H2 & H3 & H4 & _). unfold backoff_reset. cbn [bo_start bo_retries bo_left bo_rto bo_jitter].
  rewrite H1, H2, N.sub_diag. repeat split; try lia. eexists. reflexivity.
Qed.
Lemma bo_key_update13 E b : pres (Rbo13 E) (create_key_update E b).
Proof.
  unfold create_key_update. presauto (Rbo13_po E) ltac:(first [apply bo_begin13
    | lazymatch goal with |- pres _ (create_cipher13 _ _ _ _ _) => fr13 bopre13 end
    | apply pres_modify; intro; bopre13]).
Qed.
Lemma bo_frame13 E : eng_frame13 E (Rbo13 E).
Proof.
  constructor; [constructor|..].
  all: try fr13o ltac:(idtac; lazymatch goal with
    | |- pres _ (flight_begin13 _) => apply bo_begin13
    | |- pres _ (eng13_handle_timeout _ _) => apply bo_timeout13
    | |- pres _ (create_key_update _ _) => apply bo_key_update13
    end) ltac:(bopre13).
Qed.
Lemma reach_bo13 E cfg cert key h s : reach13 E cfg cert key h s ->
  g_cfg (end13_eng s) = cfg /\ bo_wf13 E (end13_eng s).
Proof.
  intros H. destruct (eng13_from E (Rbo13 E) cfg cert key (bo_frame13 E) h s H) as (e & He & [K1 K2]).
  assert (W : g_cfg e = cfg /\ bo_wf13 E e).
  { destruct He as [(b & n & ->)|He].
    - split; [reflexivity|]. unfold bo_wf13. cbn. unfold backoff_new. cbn [bo_start bo_retries bo_left bo_rto bo_jitter].
      rewrite N.sub_diag. repeat split; try lia. eexists. reflexivity.
    - destruct He as [f ->]. split; [reflexivity|]. unfold bo_wf13, hybrid_eng. cbn. unfold backoff_new, backoff_reset.
      cbn [bo_start bo_retries bo_left bo_rto bo_jitter].
      rewrite N.sub_diag. repeat split; try lia. eexists. reflexivity. }
  destruct W as [W1 W2]. split; [congruence|auto].
Qed.

(** ** Waiting *)

(** No complete handshake message is waiting to be read. *)
Definition idle13 (e : Eng13) : Prop := forall w, has_complete13 e w = false.
(** The endpoint is in the middle of a handshake, waiting for the peer's next message,
    and has not received it.  (To wait for CertificateVerify and Finished, what they
    are checked against must be computable.) *)
Definition waiting13 (E : Env) (s : End13) : Prop :=
  idle13 (end13_eng s) /\
  match s with
  | XC c =>
    match xc_state c with
    | CT_AwaitServerHello | CT_AwaitEncryptedExtensions | CT_AwaitCertificateRequest | CT_AwaitCertificate => True
    | CT_AwaitCertificateVerify => exists th, transcript_hash13 E (xc_eng c) = (Ok th, xc_eng c)
    | CT_AwaitFinished => exists k vd, xc_shs c = Some k /\ compute_verify_data E k (xc_eng c) = (Ok vd, xc_eng c)
    | _ => False
    end
  | XS c =>
    match xs_state c with
    | ST_AwaitClientHello | ST_AwaitCertificate => True
    | ST_AwaitCertificateVerify => exists th, transcript_hash13 E (xs_eng c) = (Ok th, xs_eng c)
    | ST_AwaitFinished => exists k vd, xs_chs c = Some k /\ compute_verify_data E k (xs_eng c) = (Ok vd, xs_eng c)
    | _ => False
    end
  end.

Lemma idle_next13 a b w e : idle13 e -> next_handshake13_gen a b w e = (Ok None, e).
Proof. intros H. unfold next_handshake13_gen, bind, get. rewrite H. reflexivity. Qed.
Lemma set_xc_eng_id c : set_xc_eng (xc_eng c) c = c. Proof. destruct c; reflexivity. Qed.
Lemma set_xs_eng_id c : set_xs_eng (xs_eng c) c = c. Proof. destruct c; reflexivity. Qed.
Lemma xeng_same {A} (m : M Eng13 A) c r : m (xc_eng c) = (r, xc_eng c) -> xeng m c = (r, c).
Proof. intros H. unfold xeng, zoom. rewrite H, set_xc_eng_id. reflexivity. Qed.
Lemma yeng_same {A} (m : M Eng13 A) c r : m (xs_eng c) = (r, xs_eng c) -> yeng m c = (r, c).
Proof. intros H. unfold yeng, zoom. rewrite H, set_xs_eng_id. reflexivity. Qed.

Lemma x_step_waits E c : waiting13 E (XC c) -> x_step E (xc_state c) c = (Ok (xc_state c), c).
Proof.
  intros [H W]. cbn [end13_eng] in H.
  pose proof (fun w => xeng_same _ c _ (idle_next13 false true w _ H)) as N.
  destruct (xc_state c) eqn:Hs; try contradiction; cbn [x_step].
  - unfold x_await_server_hello, bind, get, ret, next_handshake13. rewrite N. reflexivity.
  - unfold x_await_encrypted_extensions, bind, ret, next_handshake13. rewrite N. reflexivity.
  - unfold x_await_certificate_request, bind, get, ret, next_handshake13. rewrite H, N. reflexivity.
  - unfold x_await_certificate, bind, ret, next_handshake13. rewrite N. reflexivity.
  - destruct W as [th W]. unfold x_await_certificate_verify, bind, ret, next_handshake13.
    rewrite (xeng_same _ _ _ W), N. reflexivity.
  - destruct W as (k & vd & Wk & W). unfold x_await_finished, bind, get, ret, of_opt, next_handshake13.
    rewrite Wk. unfold ret. rewrite (xeng_same _ _ _ W), N. reflexivity.
Qed.
Lemma y_step_waits E c : waiting13 E (XS c) -> y_step E (xs_state c) c = (Ok (xs_state c), c).
Proof.
  intros [H W]. cbn [end13_eng] in H.
  pose proof (fun a w => yeng_same _ c _ (idle_next13 a true w _ H)) as N.
  destruct (xs_state c) eqn:Hs; try contradiction; cbn [y_step].
  - unfold y_await_client_hello, bind, get, ret, next_handshake13, next_client_hello_auto.
    destruct (xs_auto c); rewrite N; reflexivity.
  - unfold y_await_certificate, bind, ret, next_handshake13. rewrite N. reflexivity.
  - destruct W as [th W]. unfold y_await_certificate_verify, bind, ret, next_handshake13.
    rewrite (yeng_same _ _ _ W), N. reflexivity.
  - destruct W as (k & vd & Wk & W). unfold y_await_finished, bind, get, ret, of_opt, next_handshake13.
    rewrite Wk. unfold ret. rewrite (yeng_same _ _ _ W), N. reflexivity.
Qed.
Lemma x_make_waits E c : waiting13 E (XC c) -> public (x_make_progress E) c = (Ok tt, c).
Proof.
  intros W. unfold public, x_make_progress. cbn [x_progress]. unfold bind, get. rewrite (x_step_waits E c W).
  unfold cstate13_eqb. destruct (cstate13_eq_dec _ _); [reflexivity|contradiction].
Qed.
Lemma y_make_waits E c : waiting13 E (XS c) -> public (y_make_progress E) c = (Ok tt, c).
Proof.
  intros W. unfold public, y_make_progress. cbn [y_progress]. unfold bind, get. rewrite (y_step_waits E c W).
  unfold sstate13_eqb. destruct (sstate13_eq_dec _ _); [reflexivity|contradiction].
Qed.

(** What waiting depends on. *)
Definition Rw (a b : Eng13) : Prop :=
  g_rx b = g_rx a /\ g_peer_hs b = g_peer_hs a /\ g_transcript b = g_transcript a /\ g_suite b = g_suite a /\ g_cfg b = g_cfg a.
Lemma Rw_po : preorder Rw.
Proof. split; unfold Rw; [auto 10|]. intros a b c (A1 & A2 & A3 & A4 & A5) (-> & -> & -> & -> & ->). auto. Qed.
Ltac wpre := first [exact Rw_po | intros; repeat split; reflexivity | intros; assumption].
Lemma w_timeout E now : pres Rw (eng13_handle_timeout E now).
Proof. fr13 wpre. Qed.
Lemma th13_same E a b th : Rw a b -> transcript_hash13 E a = (Ok th, a) -> transcript_hash13 E b = (Ok th, b).
Proof.
  intros (_ & _ & A & B & _). unfold transcript_hash13, hash_alg13, bind, get, ret, panic. rewrite B.
  destruct (g_suite a); [|discriminate]. rewrite A. congruence.
Qed.
Lemma vd13_same E k a b vd : Rw a b -> compute_verify_data E k a = (Ok vd, a) -> compute_verify_data E k b = (Ok vd, b).
Proof.
  intros (_ & _ & A & B & _). unfold compute_verify_data, transcript_hash13, hash_alg13, label13, extract13, of_opt, bind, get, ret, panic, fail.
  rewrite B. destruct (g_suite a) eqn:Sa; [|discriminate].
  destruct (hkdf_expand_label13 _ _ _ _ _ _); cbv beta iota; [|discriminate].
  rewrite Sa, B. cbv beta iota. rewrite A. destruct (hkdf_extract _ _ _ _); [|discriminate]. cbv beta iota. congruence.
Qed.
Lemma idle13_same a b : Rw a b -> idle13 a -> idle13 b.
Proof.
  intros (A & B & _) H w. specialize (H w). unfold has_complete13, pending_frags, all_frags in *. rewrite A, B. exact H.
Qed.
Lemma eng_set13 e s : end13_eng (set13_eng e s) = e. Proof. destruct s; reflexivity. Qed.
Lemma waiting13_same E s e : Rw (end13_eng s) e -> waiting13 E s -> waiting13 E (set13_eng e s).
Proof.
  intros R [I W]. split; [rewrite eng_set13; eapply idle13_same; eassumption|].
  destruct s as [c|c]; cbn [set13_eng end13_eng] in *; cbn [xc_state xc_eng xc_shs set_xc_eng xs_state xs_eng xs_chs set_xs_eng].
  - destruct (xc_state c); try exact W.
    + destruct W as [th W]. exists th. eapply th13_same; eassumption.
    + destruct W as (k & vd & Wk & W). exists k, vd. split; [exact Wk|]. eapply vd13_same; eassumption.
  - destruct (xs_state c); try exact W.
    + destruct W as [th W]. exists th. eapply th13_same; eassumption.
    + destruct W as (k & vd & Wk & W). exists k, vd. split; [exact Wk|]. eapply vd13_same; eassumption.
Qed.

(** ** One [handle_timeout] *)

(** The endpoint with the clock set and its random drawn. *)
Definition prepared13 (E : Env) (now : N) (s : End13) : End13 :=
  match s with
  | XC c => XC (draw_random13 E (set_xc_now now c))
  | XS c => XS (draw_random13s E (set_xs_now now c))
  end.
Lemma prepared_eng13 E now s : exists o, end13_eng (prepared13 E now s) = set_g_orc o (end13_eng s).
Proof. destruct s as [c|c]; cbn [prepared13 end13_eng]; [apply draw_eng13|apply draw_eng13s]. Qed.
Lemma prepared_waiting13 E now s : waiting13 E s -> waiting13 E (prepared13 E now s).
Proof.
  intros [I W]. destruct (prepared_eng13 E now s) as [o Ho]. split.
  { rewrite Ho. eapply idle13_same; [|exact I]. repeat split. }
  destruct s as [c|c]; cbn [prepared13 end13_eng] in *.
  - replace (xc_state (draw_random13 E (set_xc_now now c))) with (xc_state c) by (unfold draw_random13; destruct (xc_random _); reflexivity).
    replace (xc_shs (draw_random13 E (set_xc_now now c))) with (xc_shs c) by (unfold draw_random13; destruct (xc_random _); reflexivity).
    rewrite Ho. destruct (xc_state c); try exact W.
    + destruct W as [th W]. exists th. eapply th13_same; [|exact W]. repeat split.
    + destruct W as (k & vd & Wk & W). exists k, vd. split; [exact Wk|]. eapply vd13_same; [|exact W]. repeat split.
  - replace (xs_state (draw_random13s E (set_xs_now now c))) with (xs_state c) by (unfold draw_random13s; destruct (xs_random _); reflexivity).
    replace (xs_chs (draw_random13s E (set_xs_now now c))) with (xs_chs c) by (unfold draw_random13s; destruct (xs_random _); reflexivity).
    rewrite Ho. destruct (xs_state c); try exact W.
    + destruct W as [th W]. exists th. eapply th13_same; [|exact W]. repeat split.
    + destruct W as (k & vd & Wk & W). exists k, vd. split; [exact Wk|]. eapply vd13_same; [|exact W]. repeat split.
Qed.
Lemma waiting_tick_unfold E now s : waiting13 E s ->
  exists o, end13_call E (Tick now) s =
    (let '(r, e) := eng13_handle_timeout E now (set_g_orc o (end13_eng s)) in
     (match r with Ok _ => Ok None | Err x => Err x | Panic n => Panic n end, set13_eng e (prepared13 E now s))) /\
    waiting13 E (set13_eng (snd (eng13_handle_timeout E now (set_g_orc o (end13_eng s)))) (prepared13 E now s)).
Proof.
  intros W. destruct (prepared_eng13 E now s) as [o Ho]. exists o. pose proof (prepared_waiting13 E now s W) as W1.
  pose proof (w_timeout E now (set_g_orc o (end13_eng s))) as T.
  assert (W2 : waiting13 E (set13_eng (snd (eng13_handle_timeout E now (set_g_orc o (end13_eng s)))) (prepared13 E now s))).
  { apply waiting13_same; [|exact W1]. rewrite Ho. exact T. }
  split; [|exact W2]. clear T. revert W2.
  destruct (eng13_handle_timeout E now (set_g_orc o (end13_eng s))) as [r e] eqn:He. cbn [snd]. intros W2.
  destruct s as [c|c]; cbn [end13_call client13_call server13_call prepared13 end13_eng set13_eng] in *;
    unfold no_output; unfold bind at 1; rewrite ?tick_draw, ?tick_draws; unfold bind at 1, xeng, yeng, zoom; rewrite Ho, He;
    (destruct r as [[]|x|n]; [|reflexivity|reflexivity]).
  - rewrite (x_make_waits E _ W2). reflexivity.
  - rewrite (y_make_waits E _ W2). reflexivity.
Qed.

(** The retransmissions of the current flight so far. *)
Definition resent13 (s : End13) : N := c_retries (g_cfg (end13_eng s)) - bo_left (g_bo (end13_eng s)).
Lemma rto_about13 E e : jitter_ok E -> bo_wf13 E e ->
  about (c_rto (g_cfg e) * 2 ^ (c_retries (g_cfg e) - bo_left (g_bo e))) (backoff_rto (g_bo e)).
Proof. intros J (_ & _ & _ & <- & t & Ht). apply backoff_rto_about. rewrite Ht. apply J. Qed.

(** Flight, backoff and what is to be retransmitted stay. *)
Definition Rf (a b : Eng13) : Prop :=
  g_cfg b = g_cfg a /\ g_bo b = g_bo a /\ g_flight b = g_flight a /\ g_saved b = g_saved a.
Lemma Rf_po : preorder Rf.
Proof. split; unfold Rf; [auto 10|]. intros a b c (A1 & A2 & A3 & A4) (-> & -> & -> & ->). auto. Qed.
Ltac fpre := first [exact Rf_po | intros; repeat split; reflexivity | intros; assumption].
Lemma f_flush E now : pres Rf (maybe_flush_ack E now).
Proof.
  unfold maybe_flush_ack. presauto Rf_po ltac:(first [
    lazymatch goal with |- pres _ (create_cipher13 _ _ _ _ _) => fr13 fpre end | apply pres_modify; intro; fpre]).
Qed.
Lemma f_ack E now : pres Rf (ack_stage E now).
Proof.
  unfold ack_stage. apply pres_bind; [exact Rf_po| |intros _; apply f_flush].
  apply pres_modify. intro s. destruct (maybe_ack_set now s) as (d & ->). repeat split; reflexivity.
Qed.
Definition Rg (a b : Eng13) : Prop := g_cfg b = g_cfg a /\ g_bo b = g_bo a /\ g_flight b = g_flight a.
Lemma Rg_po : preorder Rg.
Proof. split; unfold Rg; [auto 10|]. intros a b c (A1 & A2 & A3) (-> & -> & ->). auto. Qed.
Ltac gpre := first [exact Rg_po | intros; repeat split; reflexivity | intros; assumption].
Lemma g_resend E : pres Rg (flight_resend13 E). Proof. fr13 gpre. Qed.
Lemma nt_ack E now s k : fst (ack_stage E now s) <> Err (ETimeout k).
Proof. unfold ack_stage, bind, modify. apply (nt_flush E now). Qed.

Section WaitingTick.
Variables (E : Env) (cfg : Config) (cert : bytes) (key : KeyInfo) (h : list (Call * Reply)) (s : End13) (now : N).
Hypothesis HR : reach13 E cfg cert key h s.
Hypothesis HW : waiting13 E s.
Hypothesis HJ : jitter_ok E.
(** not past the overall deadline *)
Hypothesis HC : match g_connect (end13_eng s) with Armed c => now < c | _ => True end.
Hypothesis HT : 0 < c_hs_timeout cfg.

Lemma arm13_rest e : Rsb e (arm13 now e) /\ g_saved (arm13 now e) = g_saved e /\ g_tx (arm13 now e) = g_tx e /\
  g_flight (arm13 now e) = match g_flight e with Unarmed => Armed (now + backoff_rto (g_bo e)) | t => t end.
Proof.
  unfold arm13. destruct (g_connect e); destruct (g_flight e) eqn:K; cbn; rewrite ?K; repeat split.
Qed.

Lemma waiting_tick13 r s' : end13_call E (Tick now) s = (r, s') ->
  match g_flight (end13_eng s) with
  | Disabled =>
    r = Ok None /\ waiting13 E s' /\ g_flight (end13_eng s') = Disabled /\ g_tx (end13_eng s') = g_tx (end13_eng s)
  | Unarmed => (* a new flight: its first deadline is set *)
    ~ timer_reply r /\ waiting13 E s' /\ resent13 s' = resent13 s /\ g_saved (end13_eng s') = g_saved (end13_eng s) /\
    exists d, about (c_rto cfg * 2 ^ resent13 s) d /\ g_flight (end13_eng s') = Armed (now + d)
  | Armed f =>
    if now <? f then
      ~ timer_reply r /\ waiting13 E s' /\ resent13 s' = resent13 s /\ g_saved (end13_eng s') = g_saved (end13_eng s) /\
      g_flight (end13_eng s') = Armed f
    else if resent13 s <? c_retries cfg then
      ~ timer_reply r /\ waiting13 E s' /\ resent13 s' = resent13 s + 1 /\
      (exists d, about (c_rto cfg * 2 ^ resent13 s') d /\ g_flight (end13_eng s') = Armed (now + d)) /\
      (exists x rx e1, g_saved x = g_saved (end13_eng s) /\ g_tx x = g_tx (end13_eng s) /\
         flight_resend13 E x = (rx, e1) /\
         match rx with
         | Ok _ => g_saved (end13_eng s') = g_saved e1
         | Err y => r = Err y /\ end13_eng s' = e1
         | Panic n => r = Panic n
         end)
    else r = Err (ETimeout TO_Handshake) /\ g_tx (end13_eng s') = g_tx (end13_eng s)
  end.
Proof.
  intros H. destruct (reach_bo13 _ _ _ _ _ _ HR) as [Hcfg B].
  destruct (waiting_tick_unfold E now s HW) as (o & Hu & W2). rewrite Hu in H. clear Hu.
  destruct (eng13_handle_timeout E now (set_g_orc o (end13_eng s))) as [rt e] eqn:He. cbn [snd] in W2.
  injection H as Hr Hs.
  assert (W' : waiting13 E s') by (rewrite <- Hs; exact W2).
  assert (Es : end13_eng s' = e) by (rewrite <- Hs; apply eng_set13).
  clear Hs W2. rewrite timeout13_unfold in He.
  set (e0 := set_g_orc o (end13_eng s)) in *.
  assert (Kc : g_connect (arm13 now e0) = armed13 now (end13_eng s)) by (rewrite (proj2 (arm13_connect now e0)); reflexivity).
  assert (D1 : due (g_connect (arm13 now e0)) now = false).
  { rewrite Kc. unfold armed13, due. destruct (g_connect (end13_eng s)); [reflexivity|rewrite Hcfg; lia|lia]. }
  rewrite D1, rest_unfold in He. clear Kc D1.
  destruct (arm13_rest e0) as ((A1 & A2) & A3 & A4 & A5).
  change (g_cfg e0) with (g_cfg (end13_eng s)) in A1. change (g_bo e0) with (g_bo (end13_eng s)) in A2, A5.
  change (g_saved e0) with (g_saved (end13_eng s)) in A3. change (g_tx e0) with (g_tx (end13_eng s)) in A4.
  change (g_flight e0) with (g_flight (end13_eng s)) in A5. rewrite A5 in He.
  set (e1 := arm13 now e0) in *. clearbody e1. clear e0.
  assert (Stay : forall d, ack_stage E now e1 = (rt, e) -> g_flight e1 = Armed d ->
    ~ timer_reply r /\ waiting13 E s' /\ resent13 s' = resent13 s /\ g_saved (end13_eng s') = g_saved (end13_eng s) /\
      g_flight (end13_eng s') = Armed d).
  { intros d Hk Hf. pose proof (f_ack E now e1) as (P1 & P2 & P3 & P4). rewrite Hk in *. cbn [snd] in *.
    split. { intros [k Kr]. subst r. destruct rt; try discriminate. injection Kr as ->.
      apply (nt_ack E now e1 k). rewrite Hk. reflexivity. }
    split; [exact W'|]. unfold resent13. rewrite Es, P1, P2, P3, P4, A1, A2, A3. auto. }
  destruct (g_flight (end13_eng s)) as [| |f].
  - injection He as <- <-. subst r. rewrite Es. auto.
  - replace (now + backoff_rto (g_bo (end13_eng s)) <=? now) with false in He by (unfold backoff_rto, ms; lia).
    destruct (Stay _ He A5) as (S1 & S2 & S3 & S4 & S5).
    split; [exact S1|]. split; [exact S2|]. split; [exact S3|]. split; [exact S4|].
    eexists. split; [|exact S5]. rewrite <- Hcfg. unfold resent13. apply rto_about13 with (1 := HJ). exact B.
  - destruct (now <? f) eqn:Hn.
    { replace (f <=? now) with false in He by lia. apply Stay; auto. }
    replace (f <=? now) with true in He by lia.
    unfold backoff_can_retry in He. rewrite A2 in He.
    destruct (resent13 s <? c_retries cfg) eqn:Hk; unfold resent13 in Hk; rewrite Hcfg in Hk;
      pose proof B as (B1 & B2 & B3 & B4 & B5); rewrite Hcfg in B3.
    2:{ replace (0 <? bo_left (g_bo (end13_eng s))) with false in He by lia. injection He as <- <-. subst r. rewrite Es. auto. }
    replace (0 <? bo_left (g_bo (end13_eng s))) with true in He by lia.
    set (x := rearm13 E now e1) in *.
    assert (Hl : bo_left (g_bo x) = bo_left (g_bo (end13_eng s)) - 1).
    { unfold x, rearm13, backoff_attempt. cbn. rewrite A2. replace (_ =? 0) with false by lia. reflexivity. }
    assert (Hxc : g_cfg x = cfg) by (unfold x, rearm13; cbn; congruence).
    assert (Bx : bo_wf13 E x).
    { apply bo_rearm13; [unfold backoff_can_retry; rewrite A2; lia|]. unfold bo_wf13. rewrite A1, A2. exact B. }
    assert (Hxf : g_flight x = Armed (now + backoff_rto (g_bo x))) by reflexivity.
    assert (Hxs : g_saved x = g_saved (end13_eng s)) by (unfold x, rearm13; cbn; congruence).
    assert (Hxt : g_tx x = g_tx (end13_eng s)) by (unfold x, rearm13; cbn; congruence).
    clearbody x. unfold bind in He. pose proof (g_resend E x) as (P1 & P2 & P3).
    assert (NT : forall k, fst (flight_resend13 E x) <> Err (ETimeout k)) by (intro k; apply nt_resend13).
    destruct (flight_resend13 E x) as [rx e2] eqn:Hx. cbn [fst snd] in *.
    assert (G : Rg e2 e /\ (rx = Ok tt -> g_saved e = g_saved e2) /\ forall k, rt <> Err (ETimeout k)).
    { destruct rx as [[]|y|y].
      - pose proof (f_ack E now e2) as (Q1 & Q2 & Q3 & Q4). pose proof (nt_ack E now e2) as NA. rewrite He in *. cbn [fst snd] in *.
        split; [repeat split; assumption|]. auto.
      - injection He as <- <-. split; [apply Rg_po|]. split; [discriminate|]. intros k [= ->]. apply (NT k). reflexivity.
      - injection He as <- <-. split; [apply Rg_po|]. split; discriminate. }
    destruct G as ((G1 & G2 & G3) & G4 & G5).
    assert (R' : resent13 s' = resent13 s + 1).
    { unfold resent13. rewrite Es, G1, G2, P1, P2, Hl, Hxc, Hcfg. lia. }
    split. { intros [k Kr]. subst r. destruct rt; try discriminate. injection Kr as ->. apply (G5 k). reflexivity. }
    split; [exact W'|]. split; [exact R'|]. split.
    + exists (backoff_rto (g_bo x)). split; [|rewrite Es; congruence].
      unfold resent13. rewrite Es, G1, G2, P1, P2. rewrite <- Hxc at 1. apply rto_about13 with (1 := HJ). exact Bx.
    + exists x, rx, e2. split; [exact Hxs|]. split; [exact Hxt|]. split; [exact Hx|]. destruct rx as [[]|y|y].
      * rewrite Es. auto.
      * injection He as <- <-. subst r. auto.
      * injection He as <- <-. subst r. auto.
Qed.
End WaitingTick.
