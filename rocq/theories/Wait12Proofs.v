(** What a DTLS 1.2 endpoint does when nothing arrives: which errors its progress
    can return, and that a waiting endpoint stays put. *)
From Verif Require Import Prelude PreludeFacts Types Codec Codec12 Record12 Env Config Context12 Monad MonadFacts
  Timer Window Engine12 Client12 Server12 Engine12Frame History12 History12Facts View12
  EndFrame12 ClientInv12 ClientStep12 ServerInv12 ServerStep12 Poll12Proofs Events12 Timer12Proofs.

(** ** Timeout errors come from [handle_timeout] only *)

Definition noto {S A} (m : M S A) : Prop := forall s k, fst (m s) <> Err (ETimeout k).
Lemma noto_ret {S A} a : @noto S A (ret a). Proof. intros s k. discriminate. Qed.
Lemma noto_panic {S A} n : @noto S A (panic n). Proof. intros s k. discriminate. Qed.
Lemma noto_fail {S A} e : (forall k, e <> ETimeout k) -> @noto S A (fail e).
Proof. intros H s k [= K]. exact (H k K). Qed.
Lemma noto_bind {S A B} (m : M S A) (f : A -> M S B) : noto m -> (forall a, noto (f a)) -> noto (bind m f).
Proof.
  intros H1 H2 s k. unfold bind. specialize (H1 s k). destruct (m s) as [[a|e|n] s']; cbn in *; [apply H2|congruence|discriminate].
Qed.
Lemma noto_get {S} : @noto S S get. Proof. intros s k. discriminate. Qed.
Lemma noto_gets {S A} (f : S -> A) : noto (gets f). Proof. intros s k. discriminate. Qed.
Lemma noto_modify {S} (f : S -> S) : noto (modify f). Proof. intros s k. discriminate. Qed.
Lemma noto_when {S} b (m : M S unit) : noto m -> noto (when b m).
Proof. intros H. destruct b; [exact H|apply noto_ret]. Qed.
Lemma noto_of_opt {S A} e (o : option A) : (forall k, e <> ETimeout k) -> @noto S A (of_opt e o).
Proof. intros H. destruct o; [apply noto_ret|apply noto_fail, H]. Qed.
Lemma noto_zoom {S T A} (g : S -> T) (p : T -> S -> S) (m : M T A) : noto m -> noto (zoom g p m).
Proof. intros H s k. unfold zoom. specialize (H (g s) k). destruct (m (g s)). exact H. Qed.
Lemma noto_iterM {S A} (f : A -> M S unit) l : (forall a, noto (f a)) -> noto (iterM f l).
Proof. intros H. induction l; cbn; [apply noto_ret|apply noto_bind; auto]. Qed.

Create HintDb noto.
Ltac noto1 :=
  intros; lazymatch goal with
  | |- noto (ret _) => apply noto_ret
  | |- noto (panic _) => apply noto_panic
  | |- noto (fail _) => apply noto_fail; discriminate
  | |- noto (bind _ _) => apply noto_bind; [|intro]
  | |- noto get => apply noto_get
  | |- noto (gets _) => apply noto_gets
  | |- noto (modify _) => apply noto_modify
  | |- noto (when _ _) => apply noto_when
  | |- noto (of_opt _ _) => apply noto_of_opt; discriminate
  | |- noto (zoom _ _ _) => apply noto_zoom
  | |- noto (iterM _ _) => apply noto_iterM; intro
  | |- noto (if ?b then _ else _) => destruct b
  | |- noto (match ?x with _ => _ end) => destruct x
  | |- noto (let _ := _ in _) => cbv zeta
  end.
Ltac notos := repeat first [noto1 | solve [eauto with noto]].

Section NoTimeout.
Variable E : Env.
Lemma nt_draw : noto draw. Proof. unfold draw. notos. Qed.
Lemma nt_rand n : noto (rand_bytes E n). Proof. unfold rand_bytes. pose proof nt_draw. notos. Qed.
Hint Resolve nt_draw nt_rand : noto.
Lemma nt_seal ct sq fr : noto (seal_record E ct sq fr). Proof. unfold seal_record. notos. Qed.
Hint Resolve nt_seal : noto.
Lemma nt_cri ct ep sv fn fr : noto (create_record_inner E ct ep sv fn fr).
Proof. unfold create_record_inner. notos. Qed.
Hint Resolve nt_cri : noto.
Lemma nt_cr ct ep sv fr : noto (create_record E ct ep sv fr). Proof. apply nt_cri. Qed.
Hint Resolve nt_cr : noto.
Lemma nt_frag n : forall mt tot sq ep pr off rest, noto (frag_loop E n mt tot sq ep pr off rest).
Proof. induction n as [|n IH]; intros; cbn [frag_loop]; notos. Qed.
Hint Resolve nt_frag : noto.
Lemma nt_ch mt mk : noto mk -> noto (create_handshake E mt mk).
Proof. intros. unfold create_handshake. notos. Qed.
Hint Resolve nt_ch : noto.
Ltac notos ::= repeat first [noto1 | solve [eauto with noto] | apply nt_ch].
Lemma nt_resend_loop es : forall r f, noto (resend_loop E r f es).
Proof. induction es as [|[[? ?] ?] es IH]; intros; cbn [resend_loop]; notos. Qed.
Hint Resolve nt_resend_loop : noto.
Lemma nt_resend : noto (flight_resend E). Proof. unfold flight_resend. notos. Qed.
Hint Resolve nt_resend : noto.
Lemma nt_bsearch cs : noto (bsearch E cs). Proof. unfold bsearch. notos. Qed.
Hint Resolve nt_bsearch : noto.
Lemma nt_iih inc r h : noto (insert_incoming_handshake E inc r h). Proof. unfold insert_incoming_handshake. notos. Qed.
Lemma nt_iin inc r : noto (insert_incoming_non_handshake E inc r). Proof. unfold insert_incoming_non_handshake. notos. Qed.
Hint Resolve nt_iih nt_iin : noto.
Lemma nt_ii inc : noto (insert_incoming E inc). Proof. unfold insert_incoming. notos. Qed.
Lemma nt_dan r : noto (decryption_aad_and_nonce r). Proof. unfold decryption_aad_and_nonce. notos. Qed.
Hint Resolve nt_dan nt_ii : noto.
Lemma nt_rp raw : noto (rec_parse E raw). Proof. unfold rec_parse. notos. Qed.
Hint Resolve nt_rp : noto.
Lemma nt_cl r : noto (classify_record r). Proof. unfold classify_record. notos. Qed.
Hint Resolve nt_cl : noto.
Lemma nt_pl n : forall room p, noto (parse_loop E n room p).
Proof. induction n as [|n IH]; intros room [|b p]; cbn [parse_loop]; notos. Qed.
Lemma nt_ca rs : noto (classify_all rs). Proof. induction rs; cbn [classify_all]; notos. Qed.
Hint Resolve nt_pl nt_ca : noto.
Lemma nt_parse p : noto (eng12_parse_packet E p). Proof. unfold eng12_parse_packet, records_parse. notos. Qed.
Hint Resolve nt_parse : noto.
Lemma nt_nh w : noto (next_handshake w). Proof. unfold next_handshake. notos. Qed.
Lemma nt_nr w : noto (next_record w). Proof. unfold next_record. notos. Qed.
Lemma nt_epe : noto (enable_peer_encryption E). Proof. unfold enable_peer_encryption. notos. Qed.
Lemma nt_gvd b : noto (generate_verify_data E b). Proof. unfold generate_verify_data. notos. Qed.
Lemma nt_cop f : noto (crypto_op f). Proof. intros s k. unfold crypto_op, bind, get, modify, ret, fail. destruct (f _) as [[] ?]; discriminate. Qed.
Hint Resolve nt_nh nt_nr nt_epe nt_gvd nt_cop : noto.
Ltac noeng := unfold ceng, seng, flight_begin, flight_stop_resend_timers, drop_pending_ccs, reset_server_for_hvr,
  reset_client_for_hvr, set_cipher_suite, release_application_data, discard_pending_writes, create_client_hello,
  create_certificate12, create_client_key_exchange, create_certificate_verify, create_server_hello,
  create_server_key_exchange, set_next_handshake_seq_no, advance_epoch_0_sequence.
Lemma nt_shx es : forall b, noto (sh12_extensions b es).
Proof. induction es as [|[? ?] es IH]; intros; cbn [sh12_extensions]; notos. Qed.
Hint Resolve nt_shx : noto.
Lemma nt_cdk : noto (c_derive_keys E). Proof. unfold c_derive_keys, ceng. notos. Qed.
Hint Resolve nt_cdk : noto.
Lemma nt_c_step st : noto (c_step E st).
Proof. destruct st; unfold_c_step; noeng; notos. Qed.
Lemma nt_cke cs k : noto (s_process_cke E cs k). Proof. unfold s_process_cke, seng. notos. Qed.
Hint Resolve nt_cke : noto.
Lemma nt_s_step st : noto (s_step E st).
Proof.
  destruct st; unfold_s_step; noeng; notos.
  apply noto_fail. intros k. destruct (sv_groups _); discriminate.
Qed.
Hint Resolve nt_c_step nt_s_step : noto.
Lemma nt_c_prog n : noto (c_progress E n). Proof. induction n; cbn [c_progress]; notos. Qed.
Lemma nt_s_prog n : noto (s_progress E n). Proof. induction n; cbn [s_progress]; notos. Qed.
Lemma nt_public {S} (m : M S unit) : noto m -> noto (public m).
Proof.
  intros H s k. unfold public. specialize (H s k). destruct (m s) as [[?|e|?] ?]; try discriminate.
  destruct e; first [discriminate|exact H].
Qed.

(** A datagram never makes the library report a timeout. *)
Lemma nt_packet p s k : fst (end12_call E (Packet p) s) <> Err (ETimeout k).
Proof.
  destruct s as [c|c]; cbn [end12_call client12_call server12_call]; unfold no_output.
  - assert (H : noto (client12_handle_packet E p ;;; ret (@None Output))).
    { apply noto_bind; [|intro; apply noto_ret]. unfold client12_handle_packet. apply nt_public. unfold ceng, c_make_progress.
      pose proof (nt_c_prog 40). notos. }
    specialize (H c k). revert H. destruct ((client12_handle_packet E p ;;; ret None) c). exact (fun H => H).
  - assert (H : noto (server12_handle_packet E p ;;; ret (@None Output))).
    { apply noto_bind; [|intro; apply noto_ret]. unfold server12_handle_packet. apply nt_public. unfold seng, s_make_progress.
      pose proof (nt_s_prog 40). notos. }
    specialize (H c k). revert H. destruct ((server12_handle_packet E p ;;; ret None) c). exact (fun H => H).
Qed.
End NoTimeout.

(** ** Waiting *)

(** No complete message and no ChangeCipherSpec is waiting to be read. *)
Definition idle_rx (e : Eng12) : Prop :=
  (forall w, has_complete_handshake e w = false) /\
  match skip_while rec_handled (concat (en_rx e)) with
  | r :: _ => r_ctype r <> CT_CCS
  | [] => True
  end.
(** The endpoint is in the middle of a handshake, waiting for the peer's next message,
    and has not received it.  (To wait for Finished, its own check value must be
    computable.) *)
Definition waiting (E : Env) (s : End12) : Prop :=
  idle_rx (end_eng s) /\
  match s with
  | Cl c =>
    match cl_state c with
    | CS_AwaitHelloVerifyRequest | CS_AwaitServerHello | CS_AwaitCertificate | CS_AwaitServerKeyExchange
    | CS_AwaitCertificateRequest | CS_AwaitServerHelloDone | CS_AwaitChangeCipherSpec
    | CS_AwaitNewSessionTicket => True
    | CS_AwaitFinished => exists vd, generate_verify_data E false (cl_eng c) = (Ok vd, cl_eng c)
    | _ => False
    end
  | Sv c =>
    match sv_state c with
    | SS_AwaitClientHello | SS_AwaitCertificate | SS_AwaitClientKeyExchange | SS_AwaitCertificateVerify
    | SS_AwaitChangeCipherSpec => True
    | SS_AwaitFinished => exists vd, generate_verify_data E true (sv_eng c) = (Ok vd, sv_eng c)
    | _ => False
    end
  end.

Lemma idle_next w e : idle_rx e -> next_handshake w e = (Ok None, e).
Proof. intros [H _]. unfold next_handshake, bind, get. rewrite H. reflexivity. Qed.
Lemma idle_record e : idle_rx e -> next_record CT_CCS e = (Ok None, e).
Proof.
  intros [_ H]. unfold next_record, bind, get. destruct (skip_while _ _) as [|r l]; [reflexivity|].
  destruct (r_ctype r =? CT_CCS) eqn:K; [|reflexivity]. apply N.eqb_eq in K. contradiction.
Qed.

Lemma set_cl_eng_id c : set_cl_eng (cl_eng c) c = c. Proof. destruct c; reflexivity. Qed.
Lemma set_sv_eng_id c : set_sv_eng (sv_eng c) c = c. Proof. destruct c; reflexivity. Qed.
Lemma ceng_next w c : idle_rx (cl_eng c) -> ceng (next_handshake w) c = (Ok None, c).
Proof. intros H. unfold ceng, zoom. rewrite (idle_next w _ H), set_cl_eng_id. reflexivity. Qed.
Lemma seng_next w c : idle_rx (sv_eng c) -> seng (next_handshake w) c = (Ok None, c).
Proof. intros H. unfold seng, zoom. rewrite (idle_next w _ H), set_sv_eng_id. reflexivity. Qed.

Lemma c_step_waits E c : inv_client E c -> waiting E (Cl c) -> c_step E (cl_state c) c = (Ok (cl_state c), c).
Proof.
  intros I [H W]. cbn [end_eng] in H. pose proof (fun w => ceng_next w c H) as N.
  pose proof (idle_record _ H) as NR. destruct H as [H1 H2]. unfold inv_client in I.
  destruct (cl_state c) eqn:Hs; try contradiction; cbn [c_step].
  - unfold c_await_hello_verify_request, bind, get, ret. rewrite H1, N. reflexivity.
  - unfold c_await_server_hello, bind, ret. rewrite N. reflexivity.
  - unfold c_await_certificate, bind, ret. rewrite N. reflexivity.
  - destruct I as [_ F]. destruct (f_hello _ _ _ F) as (h & es & _ & Hsu & _); [cbn; lia|].
    unfold c_await_server_key_exchange, bind, get, ret, of_opt. rewrite Hsu. unfold ret. destruct (suite12_is_psk _).
    + unfold c_await_server_key_exchange_psk, bind, get, ret. rewrite H1, N. reflexivity.
    + unfold c_await_server_key_exchange_ecdhe, bind, ret. rewrite N. reflexivity.
  - unfold c_await_certificate_request, bind, get, ret. rewrite H1, N. reflexivity.
  - unfold c_await_server_hello_done, bind, ret. rewrite N. reflexivity.
  - unfold c_await_change_cipher_spec, bind, ret, ceng, zoom. rewrite NR, set_cl_eng_id. reflexivity.
  - unfold c_await_new_session_ticket, bind, get, ret. rewrite H1, N. reflexivity.
  - destruct W as [vd W]. unfold c_await_finished, bind, ret. unfold ceng at 1, zoom. rewrite W, set_cl_eng_id, N. reflexivity.
Qed.
Lemma s_step_waits E c : waiting E (Sv c) -> s_step E (sv_state c) c = (Ok (sv_state c), c).
Proof.
  intros [H W]. cbn [end_eng] in H. pose proof (fun w => seng_next w c H) as N.
  pose proof (idle_record _ H) as NR. destruct H as [H1 H2].
  destruct (sv_state c) eqn:Hs; try contradiction; cbn [s_step].
  - unfold s_await_client_hello, bind, ret. rewrite N. reflexivity.
  - unfold s_await_certificate, bind, ret. rewrite N. reflexivity.
  - unfold s_await_client_key_exchange, bind, ret. rewrite N. reflexivity.
  - unfold s_await_certificate_verify, bind, get, ret. rewrite N. reflexivity.
  - unfold s_await_change_cipher_spec, bind, ret, seng, zoom. rewrite NR, set_sv_eng_id. reflexivity.
  - destruct W as [vd W]. unfold s_await_finished, bind, ret. unfold seng at 1, zoom. rewrite W, set_sv_eng_id, N. reflexivity.
Qed.

(** An empty datagram does nothing to a waiting endpoint. *)
Lemma waiting_noop E s : inv_end E s -> waiting E s -> end12_call E (Packet []) s = (Ok None, s).
Proof.
  intros I W. destruct s as [c|c]; cbn [end12_call client12_call server12_call inv_end] in *; unfold no_output.
  - unfold client12_handle_packet, public, bind at 1 2. unfold ceng, zoom.
    change (eng12_parse_packet E [] (cl_eng c)) with (@Ok unit tt, cl_eng c). cbv beta iota. rewrite set_cl_eng_id.
    unfold c_make_progress. cbn [c_progress]. unfold bind, get. rewrite (c_step_waits E c I W).
    unfold cstate12_eqb. destruct (cstate12_eq_dec _ _); [reflexivity|contradiction].
  - unfold server12_handle_packet, public, bind at 1 2. unfold seng, zoom.
    change (eng12_parse_packet E [] (sv_eng c)) with (@Ok unit tt, sv_eng c). cbv beta iota. rewrite set_sv_eng_id.
    unfold s_make_progress. cbn [s_progress]. unfold bind, get. rewrite (s_step_waits E c W).
    unfold sstate12_eqb. destruct (sstate12_eq_dec _ _); [reflexivity|contradiction].
Qed.

(** ** One [handle_timeout] of a waiting endpoint *)

Definition Rrx (a b : Eng12) : Prop := en_rx b = en_rx a /\ en_peer_hs b = en_peer_hs a.
Lemma rx_tick E now e r e' : eng12_handle_timeout E now e = (r, e') -> Rrx e e'.
Proof.
  intros H. assert (PO : preorder Rrx) by (split; unfold Rrx; intuition congruence).
  pose proof (fr_handle_timeout E Rrx PO ltac:(split; reflexivity) ltac:(split; reflexivity) ltac:(split; reflexivity)
    ltac:(split; reflexivity) ltac:(split; reflexivity) ltac:(split; reflexivity) ltac:(split; reflexivity) now e) as K.
  rewrite H in K. exact K.
Qed.
Lemma idle_rx_same a b : Rrx a b -> idle_rx a -> idle_rx b.
Proof.
  intros [H1 H2] [I1 I2]. split; [|rewrite H1; exact I2]. intro w. specialize (I1 w).
  unfold has_complete_handshake in *. rewrite H1, H2. exact I1.
Qed.
Lemma gvd_same E b e e' vd : Tsame e e' -> generate_verify_data E b e = (Ok vd, e) ->
  generate_verify_data E b e' = (Ok vd, e').
Proof.
  intros T. unfold generate_verify_data, bind, get, ret, fail, transcript_hash.
  rewrite (ts_suite _ _ T), (ts_transcript _ _ T), (ts_crypto _ _ T).
  destruct (en_suite e); [|discriminate]. destruct (verify_data12 _ _ _ _ _); [|discriminate].
  destruct (Nat.eqb _ _); [|discriminate]. congruence.
Qed.
Lemma waiting_same E s e : Tsame (end_eng s) e -> Rrx (end_eng s) e -> waiting E s -> waiting E (set_end_eng e s).
Proof.
  intros T R [I W]. split; [rewrite end_eng_set_eng; eapply idle_rx_same; eassumption|].
  destruct s as [c|c]; cbn [set_end_eng end_eng] in *; ecbn.
  - destruct (cl_state c); try exact W. destruct W as [vd W]. exists vd. eapply gvd_same; eassumption.
  - destruct (sv_state c); try exact W. destruct W as [vd W]. exists vd. eapply gvd_same; eassumption.
Qed.

(** The retransmissions of the current flight so far. *)
Definition resent (s : End12) : N := c_retries (en_cfg (end_eng s)) - bo_left (en_bo (end_eng s)).
(** [d] is a waiting time of nominal length [nominal]: a quarter of a second either
    way, and at least 50 ms. *)
Definition about (nominal d : N) : Prop :=
  exists j : Z, (-250000000 <= j <= 250000000)%Z /\
    Z.of_N d = Z.max 50000000 (Z.of_N nominal + j).

Lemma backoff_rto_about b : (-250000000 <= bo_jitter b <= 250000000)%Z -> about (bo_rto b) (backoff_rto b).
Proof.
  intros J. exists (bo_jitter b). split; [exact J|]. unfold backoff_rto, ms.
  destruct (bo_jitter b <? 0)%Z eqn:H; lia.
Qed.
Lemma rto_about E e : jitter_ok E -> bo_wf E e ->
  about (c_rto (en_cfg e) * 2 ^ (c_retries (en_cfg e) - bo_left (en_bo e))) (backoff_rto (en_bo e)).
Proof.
  intros J (_ & _ & _ & <- & t & Ht). apply backoff_rto_about. rewrite Ht. apply J.
Qed.

Definition timer_reply (r : Reply) : Prop := exists k, r = Err (ETimeout k).

Lemma arm_flight now e : en_flight (arm now e) =
  match en_flight e with Unarmed => Armed (now + backoff_rto (en_bo e)) | t => t end.
Proof.
  unfold arm. destruct (en_connect e); cbn [timeout_is_unarmed]; ecbn; destruct (en_flight e) eqn:H;
    cbn [timeout_is_unarmed]; ecbn; auto.
Qed.
Lemma arm_rest now e : en_cfg (arm now e) = en_cfg e /\ en_bo (arm now e) = en_bo e /\ en_tx (arm now e) = en_tx e /\
  en_saved (arm now e) = en_saved e.
Proof.
  unfold arm. destruct (timeout_is_unarmed (en_connect e)); ecbn; destruct (timeout_is_unarmed (en_flight e)); repeat split.
Qed.
(** The same flight, send queue, record numbers and keys. *)
Definition same_wire (x e : Eng12) : Prop :=
  en_saved x = en_saved e /\ en_tx x = en_tx e /\ en_release x = en_release e /\
  en_seq0 x = en_seq0 e /\ en_seqn x = en_seqn e /\
  own_iv x = own_iv e /\ en_enl x = en_enl e /\ own_cipher x = own_cipher e.
Lemma arm_wire now e : same_wire (arm now e) e.
Proof.
  unfold arm. destruct (timeout_is_unarmed (en_connect e)); ecbn; destruct (timeout_is_unarmed (en_flight e)); repeat split.
Qed.
Lemma draw_random_waiting E now s : waiting E s -> waiting E (draw_random E now (set_end_now now s)).
Proof.
  intros [I W]. destruct s as [c|c]; unfold waiting; cbn [set_end_now draw_random]; ecbn;
    destruct (_ : option bytes); (split; [exact I|]); try exact W; ecbn.
  - destruct (cl_state c); try exact W. destruct W as [vd W]. exists vd. eapply gvd_same; [|exact W].
    apply Vsame_Tsame. constructor; reflexivity.
  - destruct (sv_state c); try exact W. destruct W as [vd W]. exists vd. eapply gvd_same; [|exact W].
    apply Vsame_Tsame. constructor; reflexivity.
Qed.

Lemma waiting_running E s : inv_end E s -> waiting E s ->
  en_connect (end_eng s) <> Disabled /\ en_flight (end_eng s) <> Disabled.
Proof.
  intros I [_ W]. destruct s as [c|c]; cbn [inv_end end_eng] in *; destruct I as [[T _] _].
  - destruct (cl_state c); cbn [timers_c] in T; try contradiction; destruct T as (T1 & T2 & _); auto.
  - destruct (sv_state c); cbn [timers_s] in T; try contradiction; destruct T as (T1 & T2 & _); auto.
Qed.

Section WaitingTick.
Variables (E : Env) (cfg : Config) (auth : AuthMode) (h : list (Call * Reply)) (s : End12) (now : N).
Hypothesis HR : reach12 E cfg auth h s.
Hypothesis HW : waiting E s.
Hypothesis HJ : jitter_ok E.
(** not past the overall deadline *)
Hypothesis HC : match en_connect (end_eng s) with Armed c => now < c | _ => True end.
Hypothesis HT : 0 < c_hs_timeout cfg.

Lemma waiting_tick r s' : end12_call E (Tick now) s = (r, s') ->
  match en_flight (end_eng s) with
  | Disabled => False
  | Unarmed => (* a new flight: its first deadline is set *)
    r = Ok None /\ waiting E s' /\ en_tx (end_eng s') = en_tx (end_eng s) /\ resent s' = resent s /\
    exists d, about (c_rto cfg * 2 ^ resent s) d /\ en_flight (end_eng s') = Armed (now + d)
  | Armed f =>
    if now <? f then
      r = Ok None /\ waiting E s' /\ en_tx (end_eng s') = en_tx (end_eng s) /\ resent s' = resent s /\
      en_flight (end_eng s') = Armed f
    else if resent s <? c_retries cfg then
      ~ timer_reply r /\ resent s' = resent s + 1 /\
      (exists d, about (c_rto cfg * 2 ^ resent s') d /\ en_flight (end_eng s') = Armed (now + d)) /\
      (r = Ok None -> waiting E s') /\
      (exists x, flight_resend E x = (match r with Ok _ => Ok tt | Err e => Err e | Panic n => Panic n end, end_eng s') /\
        same_wire x (end_eng s))
    else r = Err (ETimeout TO_Handshake)
  end.
Proof.
  intros H. pose proof (reach_end_inv _ _ _ _ _ HR) as I. pose proof (reach_bo _ _ _ _ _ HR) as B.
  pose proof (proj1 (reach_connect _ _ _ _ _ HR)) as Hcfg.
  assert (Hfl : en_flight (end_eng s) <> Disabled).
  { intro K. destruct HW as [_ W]. destruct s as [c|c]; cbn [inv_end end_eng] in *; destruct I as [[T _] _].
    - destruct (cl_state c); cbn [timers_c] in T; try contradiction; destruct T as (_ & T & _); contradiction.
    - destruct (sv_state c); cbn [timers_s] in T; try contradiction; destruct T as (_ & T & _); contradiction. }
  rewrite tick_unfold in H. set (s1 := draw_random E now (set_end_now now s)) in *.
  destruct (draw_random_eng E now s) as [o Ho]. fold s1 in Ho.
  assert (W1 : waiting E s1) by (apply draw_random_waiting, HW).
  destruct (eng12_handle_timeout E now (end_eng s1)) as [x e] eqn:He.
  destruct (tick_prepared E now s x e I He) as (I2 & _ & _). fold s1 in I2.
  assert (W2 : waiting E (set_end_eng e s1)).
  { apply waiting_same; [|eapply rx_tick; exact He|exact W1].
    pose proof (v_handle_timeout E now (end_eng s1)) as T. rewrite He in T. exact T. }
  rewrite handle_timeout_spec in He. cbv zeta in He.
  destruct (arm_rest now (end_eng s1)) as (A1 & A2 & A3 & A4).
  rewrite Ho in A1, A2, A3, A4. ecbn_in A1. ecbn_in A2. ecbn_in A3. ecbn_in A4.
  assert (D1 : due (en_connect (arm now (end_eng s1))) now = false).
  { rewrite arm_connect, Ho. ecbn. unfold due. destruct (en_connect (end_eng s)); [reflexivity|rewrite Hcfg; lia|lia]. }
  assert (AW : same_wire (arm now (end_eng s1)) (end_eng s)) by (pose proof (arm_wire now (end_eng s1)) as AW; rewrite Ho in AW |- *; exact AW).
  rewrite D1 in He. pose proof (arm_flight now (end_eng s1)) as AF. rewrite Ho in *. 
  set (e1 := arm now _) in *. ecbn_in AF.
  assert (Stay : forall d, e = e1 -> x = Ok tt -> en_flight e1 = Armed d ->
    r = Ok None /\ waiting E s' /\ en_tx (end_eng s') = en_tx (end_eng s) /\ resent s' = resent s /\
    en_flight (end_eng s') = Armed d).
  { intros d -> -> Hf. rewrite (waiting_noop E _ I2 W2) in H. injection H as <- <-.
    split; [reflexivity|]. split; [exact W2|]. unfold resent. rewrite end_eng_set_eng, A1, A2, A3. auto. }
  destruct (en_flight (end_eng s)) as [| |f] eqn:Hf; [contradiction|..].
  - rewrite AF in He. unfold due in He. replace (_ <=? now) with false in He by (unfold backoff_rto, ms; lia).
    injection He as <- <-. destruct (Stay _ eq_refl eq_refl AF) as (S1 & S2 & S3 & S4 & S5).
    split; [exact S1|]. split; [exact S2|]. split; [exact S3|]. split; [exact S4|].
    eexists. split; [|exact S5]. rewrite <- Hcfg. unfold resent. apply rto_about with (1 := HJ). exact B.
  - rewrite AF in He. unfold due in He. destruct (now <? f) eqn:Hn.
    { replace (f <=? now) with false in He by lia. injection He as <- <-. apply Stay; auto. }
    replace (f <=? now) with true in He by lia.
    destruct B as (B1 & B2 & B3 & B4 & B5).
    unfold backoff_can_retry in He. rewrite A2 in He.
    destruct (resent s <? c_retries cfg) eqn:Hk; unfold resent in Hk; rewrite Hcfg in Hk, B3.
    + replace (0 <? bo_left (en_bo (end_eng s))) with true in He by lia.
      assert (V : Vsame (rearm E now e1) e) by (pose proof (v_flight_resend E (rearm E now e1)) as V; rewrite He in V; exact V).
      assert (Bx : bo_wf E (rearm E now e1)).
      { apply bo_rearm; [unfold backoff_can_retry; rewrite A2; lia|]. unfold bo_wf. rewrite A1, A2. rewrite Hcfg in *. auto. }
      assert (Hl : bo_left (en_bo (rearm E now e1)) = bo_left (en_bo (end_eng s)) - 1).
      { unfold rearm, backoff_attempt. ecbn. rewrite A2. replace (_ =? 0) with false by lia. reflexivity. }
      assert (R' : c_retries (en_cfg e) - bo_left (en_bo e) = resent s + 1).
      { rewrite (vs_bo _ _ V), (vs_cfg _ _ V), Hl. unfold resent. unfold rearm. ecbn. rewrite A1, Hcfg. lia. }
      assert (Ex : end_eng s' = e /\ (r = Ok None -> waiting E s') /\
        match r with Ok _ => Ok tt | Err y => Err y | Panic n => Panic n end = x).
      { destruct x as [[]|y|y].
        - rewrite (waiting_noop E _ I2 W2) in H. injection H as <- <-. rewrite end_eng_set_eng. auto.
        - injection H as <- <-. rewrite end_eng_set_eng. split; [reflexivity|]. split; [discriminate|reflexivity].
        - injection H as <- <-. rewrite end_eng_set_eng. split; [reflexivity|]. split; [discriminate|reflexivity]. }
      destruct Ex as (X1 & X2 & X3). unfold resent at 1 3. rewrite !X1, !R'.
      split; [|split; [reflexivity|]].
      { intros [k ->]. subst x. pose proof (nt_resend E (rearm E now e1) k) as K. rewrite He in K. apply K. reflexivity. }
      split; [|split; [exact X2|]].
      * exists (backoff_rto (en_bo (rearm E now e1))). split.
        { rewrite <- R', (vs_bo _ _ V), (vs_cfg _ _ V).
          replace (c_rto cfg) with (c_rto (en_cfg (rearm E now e1))) by (unfold rearm; ecbn; rewrite A1, Hcfg; reflexivity).
          apply rto_about with (1 := HJ). exact Bx. }
        rewrite (vs_flight _ _ V). reflexivity.
      * exists (rearm E now e1). rewrite X3. split; [exact He|]. exact AW.
    + replace (0 <? bo_left (en_bo (end_eng s))) with false in He by lia. injection He as <- <-. injection H as <- <-. reflexivity.
Qed.
End WaitingTick.

Lemma nt_send E d s k : fst (end12_call E (Send d) s) <> Err (ETimeout k).
Proof.
  destruct s as [c|c]; cbn [end12_call client12_call server12_call]; unfold no_output, client12_send, server12_send,
    bind, get, modify, ret, fail, ceng, seng, zoom.
  - destruct (cl_state c); try discriminate. pose proof (nt_cr E CT_APP 1 false d (cl_eng c) k) as K.
    destruct (create_record _ _ _ _ _ _) as [[?|?|?] ?]; cbn [fst] in *; congruence.
  - destruct (sv_state c); try discriminate. pose proof (nt_cr E CT_APP 1 false d (sv_eng c) k) as K.
    destruct (create_record _ _ _ _ _ _) as [[?|?|?] ?]; cbn [fst] in *; congruence.
Qed.
Lemma nt_close E s k : fst (end12_call E Close s) <> Err (ETimeout k).
Proof.
  destruct s as [c|c]; cbn [end12_call client12_call server12_call]; unfold no_output, client12_close, server12_close,
    eng12_abort, bind, get, modify, ret, fail, ceng, seng, zoom.
  - destruct (cl_state c); try discriminate. pose proof (nt_cr E CT_ALERT 1 false [1; 0] (cl_eng c) k) as K.
    destruct (create_record _ _ _ _ _ _) as [[?|?|?] ?]; cbn [fst] in *; congruence.
  - destruct (sv_state c); try discriminate. pose proof (nt_cr E CT_ALERT 1 false [1; 0] (sv_eng c) k) as K.
    destruct (create_record _ _ _ _ _ _) as [[?|?|?] ?]; cbn [fst] in *; congruence.
Qed.
