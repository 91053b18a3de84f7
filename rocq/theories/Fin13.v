(** The two phases of a DTLS 1.3 endpoint: the handshake, and what follows it.  An
    endpoint in the second phase stays there and uses few of the engine's operations. *)
From Verif Require Import Prelude PreludeFacts Types Codec Codec12 Codec13 Record12 Record13 Monad MonadFacts Timer Env Config Engine12 Client12
  Engine13 Client13 Server13 History12 History12Facts History13 Frame13 Lift13 Index13 Trace13 Trace13Proofs Out13.

Definition fin_x (st : CState13) : bool :=
  match st with CT_AwaitApplicationData | CT_HalfClosedLocal | CT_Closed => true | _ => false end.
Definition fin_y (st : SState13) : bool :=
  match st with ST_AwaitApplicationData | ST_HalfClosedLocal | ST_Closed => true | _ => false end.
Definition fin13 (s : End13) : bool := match s with XC c => fin_x (xc_state c) | XS c => fin_y (xs_state c) end.

Lemma fin_x_stays E st : fin_x st = true -> rets (fun st' => fin_x st' = true) (x_step E st).
Proof.
  destruct st; try discriminate; intros _; cbn [x_step]; unfold x_await_application_data, x_half_closed_local;
    rets ltac:(first [reflexivity | match goal with |- fin_x (if ?b then _ else _) = true => destruct b; reflexivity end]).
Qed.
Lemma fin_y_stays E st : fin_y st = true -> rets (fun st' => fin_y st' = true) (y_step E st).
Proof.
  destruct st; try discriminate; intros _; cbn [y_step]; unfold y_await_application_data, y_half_closed_local;
    rets ltac:(first [reflexivity | match goal with |- fin_y (if ?b then _ else _) = true => destruct b; reflexivity end]).
Qed.

(** ** After the handshake *)

Record fin_frame13 (E : Env) (R : Eng13 -> Eng13 -> Prop) : Prop := {
  ff_po : preorder R;
  ff_orc : forall v s, R s (set_g_orc v s);
  ff_needs : Pres R take_needs_key_update;
  ff_key_update : forall b, Pres R (create_key_update E b);
  ff_cipher : forall ct ep f, Pres R (create_cipher13 E ct ep false f);
  ff_next : Pres R (next_handshake13_gen false false MT_KeyUpdate);
  ff_update_recv : Pres R (update_recv_keys E);
  ff_send_ack : Pres R (send_ack13 E);
  ff_advance : Pres R advance_peer;
  ff_cancel : Pres R cancel_flights;
  ff_poll : forall cap now, Pres R (eng13_poll_output cap now);
  ff_timeout : forall now, Pres R (eng13_handle_timeout E now) }.

Section FinLift.
Variable E : Env.
Variable R : Eng13 -> Eng13 -> Prop.
Hypothesis F : fin_frame13 E R.
Let PO : preorder R := ff_po _ _ F.
Let RX (a b : Client13) : Prop := R (xc_eng a) (xc_eng b).
Let RY (a b : Server13) : Prop := R (xs_eng a) (xs_eng b).
Let RX_po : preorder RX.
Proof. split; unfold RX; intros; [apply PO|eapply PO; eauto]. Qed.
Let RY_po : preorder RY.
Proof. split; unfold RY; intros; [apply PO|eapply PO; eauto]. Qed.

Ltac fleaf :=
  first [ apply unPres, (ff_needs _ _ F) | apply unPres, (ff_key_update _ _ F) | apply unPres, (ff_cipher _ _ F)
        | apply unPres, (ff_next _ _ F) | apply unPres, (ff_update_recv _ _ F) | apply unPres, (ff_send_ack _ _ F)
        | apply unPres, (ff_advance _ _ F) | apply unPres, (ff_cancel _ _ F) | apply unPres, (ff_poll _ _ F)
        | apply unPres, (ff_timeout _ _ F) | apply (op_rand13 E _ PO), (ff_orc _ _ F) ].
Ltac xleaf := first [ assumption | apply pres_zoom; [intros ? ? ?; assumption|]; solve [fleaf] | apply (lf_xeng R); solve [fleaf]
   | apply pres_modify; intro; unfold RX; cbn; apply PO ].
Ltac yleaf := first [ assumption | apply (lf_yeng R); solve [fleaf] | apply pres_modify; intro; unfold RY; cbn; apply PO ].

Lemma fin_x_step st : fin_x st = true -> pres RX (x_step E st).
Proof.
  destruct st; try discriminate; intros _; cbn [x_step]; unfold x_await_application_data, x_half_closed_local, next_handshake13_no_transcript;
    presauto RX_po xleaf.
Qed.
Lemma fin_y_step st : fin_y st = true -> pres RY (y_step E st).
Proof.
  destruct st; try discriminate; intros _; cbn [y_step]; unfold y_await_application_data, y_half_closed_local, next_handshake13_no_transcript;
    presauto RY_po yleaf.
Qed.

Lemma fin_x_progress c0 n c : fin_x (xc_state c) = true -> RX c0 c ->
  fin_x (xc_state (snd (x_progress E n c))) = true /\ RX c0 (snd (x_progress E n c)).
Proof.
  intros H1 H2. destruct (fun A => ao_progress E (fun _ c => fin_x (xc_state c) = true /\ RX c0 c) (fun _ => False) A [] n c (conj H1 H2))
    as [K|[]]; [|exact K].
  intros os c1 r c' [K1 K2] Hs. pose proof (fin_x_step _ K1 c1) as S1. pose proof (fin_x_stays E _ K1 c1) as S2.
  pose proof (x_step_state E (xc_state c1) c1) as S3. rewrite Hs in S1, S2, S3. cbn [fst snd] in S1, S2, S3.
  assert (K : RX c0 c') by (eapply RX_po; eassumption).
  destruct r as [st|e|m]; [split; [exact S2|exact K]|left; split; [rewrite <- S3; exact K1|exact K]..].
Qed.
Lemma fin_y_progress c0 n c : fin_y (xs_state c) = true -> RY c0 c ->
  fin_y (xs_state (snd (y_progress E n c))) = true /\ RY c0 (snd (y_progress E n c)).
Proof.
  intros H1 H2. refine (bo_progress E (fun _ c => fin_y (xs_state c) = true /\ RY c0 c) _ [] n c (conj H1 H2)).
  intros os c1 r c' [K1 K2] Hs. pose proof (fin_y_step _ K1 c1) as S1. pose proof (fin_y_stays E _ K1 c1) as S2.
  pose proof (y_step_state E (xs_state c1) c1) as S3. rewrite Hs in S1, S2, S3. cbn [fst snd] in S1, S2, S3.
  assert (K : RY c0 c') by (eapply RY_po; eassumption).
  destruct r as [st|e|m]; [split; [exact S2|exact K]|split; [rewrite <- S3; exact K1|exact K]..].
Qed.

(** The engine after the parsing of the datagram, for [handle_packet]; the engine
    itself for the other calls. *)
Definition parsed13 (k : Call) (e : Eng13) : Eng13 :=
  match k with Packet p => snd (eng13_parse_packet E p e) | _ => e end.

Lemma xeng_eng {A} (m : M Eng13 A) c : xc_eng (snd (xeng m c)) = snd (m (xc_eng c)) /\ xc_state (snd (xeng m c)) = xc_state c.
Proof. unfold xeng, zoom. destruct (m (xc_eng c)). split; reflexivity. Qed.
Lemma yeng_eng {A} (m : M Eng13 A) c : xs_eng (snd (yeng m c)) = snd (m (xs_eng c)) /\ xs_state (snd (yeng m c)) = xs_state c.
Proof. unfold yeng, zoom. destruct (m (xs_eng c)). split; reflexivity. Qed.

Lemma snd_no_output {S} (m : M S unit) s : snd (no_output m s) = snd (m s).
Proof. unfold no_output, bind. destruct (m s) as [[[]|e|n] s']; reflexivity. Qed.
Lemma snd_some_output {S} (m : M S Output) s : snd (some_output m s) = snd (m s).
Proof. unfold some_output, bind. destruct (m s) as [[o|e|n] s']; reflexivity. Qed.
Lemma snd_public {S} (m : M S unit) s : snd (public m s) = snd (m s).
Proof. unfold public. destruct (m s) as [[[]|[]|n] s']; reflexivity. Qed.

Lemma snd_event {S} ev cap certs (s : S) : snd (event12_output ev cap certs s) = s.
Proof.
  unfold event12_output. destruct ev; [destruct certs as [|b l]; [reflexivity|destruct (len b <=? cap); reflexivity]|reflexivity..].
Qed.

Lemma fin_client_call k c : fin_x (xc_state c) = true ->
  fin_x (xc_state (snd (client13_call E k c))) = true /\
  R (parsed13 k (xc_eng c)) (xc_eng (snd (client13_call E k c))).
Proof.
  intros H. destruct k as [p|cap|now|d|]; cbn [client13_call parsed13].
  - rewrite snd_no_output. unfold client13_handle_packet. rewrite snd_public. unfold bind.
    destruct (xeng_eng (eng13_parse_packet E p) c) as [X1 X2].
    destruct (xeng (eng13_parse_packet E p) c) as [[[]|e|m] c1]; cbn [snd] in *; rewrite <- X1; [|rewrite X2; split; [exact H|apply PO]..].
    apply (fin_x_progress c1 40 c1); [rewrite X2; exact H|apply RX_po].
  - rewrite snd_some_output. unfold client13_poll_output, bind, get. destruct (xc_events c) as [|ev l].
    + destruct (xeng_eng (eng13_poll_output cap (xc_now c)) c) as [X1 X2]. rewrite X1, X2. split; [exact H|].
      apply (unPres _ _ (ff_poll _ _ F cap (xc_now c))).
    + unfold modify. rewrite snd_event. split; [exact H|apply PO].
  - rewrite snd_no_output, tick_draw. unfold bind.
    set (c1 := draw_random13 E (set_xc_now now c)).
    assert (C1 : fin_x (xc_state c1) = true /\ RX c c1).
    { unfold c1, draw_random13. cbn. destruct (xc_random c); (split; [exact H|]); unfold RX; cbn; [apply PO|]. apply (ff_orc _ _ F). }
    destruct (xeng_eng (eng13_handle_timeout E now) c1) as [X1 X2].
    pose proof (unPres _ _ (ff_timeout _ _ F now) (xc_eng c1)) as TO.
    destruct (xeng (eng13_handle_timeout E now) c1) as [[[]|e|m] c2]; cbn [snd] in *; rewrite <- X1 in TO.
    + rewrite snd_public. apply (fin_x_progress c 40 c2); [rewrite X2; apply C1|eapply RX_po; [apply C1|exact TO]].
    + split; [rewrite X2; apply C1|eapply PO; [apply C1|exact TO]].
    + split; [rewrite X2; apply C1|eapply PO; [apply C1|exact TO]].
  - rewrite snd_no_output. unfold client13_send, bind, get. destruct (xc_state c) eqn:Hst; try discriminate H;
      try (unfold fail; cbn [snd]; rewrite Hst; split; [reflexivity|apply PO]).
    destruct (xeng_eng (create_cipher13 E CT_APP (g_epoch (xc_eng c)) false d) c) as [X1 X2]. rewrite X1, X2, Hst.
    split; [reflexivity|]. apply (unPres _ _ (ff_cipher _ _ F _ _ _)).
  - rewrite snd_no_output. destruct (client13_close E c) as [r c'] eqn:Hc. cbn [snd]. unfold client13_close in Hc. unfold bind at 1, get in Hc.
    destruct (xc_state c) eqn:Hst; try discriminate H;
      try (unfold ret in Hc; injection Hc as <- <-; rewrite Hst; split; [reflexivity|apply PO]).
    unfold bind in Hc. destruct (xeng_eng (create_cipher13 E CT_ALERT (g_epoch (xc_eng c)) false [1; 0]) c) as [X1 X2].
    pose proof (unPres _ _ (ff_cipher _ _ F CT_ALERT (g_epoch (xc_eng c)) [1; 0]) (xc_eng c)) as TO. rewrite <- X1 in TO.
    destruct (xeng (create_cipher13 E CT_ALERT (g_epoch (xc_eng c)) false [1; 0]) c) as [[[]|e|m] c1]; cbn [snd] in *;
      [|injection Hc as <- <-; rewrite X2, Hst; split; [reflexivity|exact TO]..].
    destruct (xeng_eng cancel_flights c1) as [Y1 Y2]. pose proof (unPres _ _ (ff_cancel _ _ F) (xc_eng c1)) as TC. rewrite <- Y1 in TC.
    destruct (xeng cancel_flights c1) as [[[]|e|m] c2]; cbn [snd modify] in *; unfold modify in Hc; injection Hc as <- <-.
    + split; [reflexivity|]. eapply PO; [exact TO|exact TC].
    + split; [rewrite Y2, X2, Hst; reflexivity|]. eapply PO; [exact TO|exact TC].
    + split; [rewrite Y2, X2, Hst; reflexivity|]. eapply PO; [exact TO|exact TC].
Qed.

Lemma fin_server_call k c : fin_y (xs_state c) = true ->
  fin_y (xs_state (snd (server13_call E k c))) = true /\
  R (parsed13 k (xs_eng c)) (xs_eng (snd (server13_call E k c))).
Proof.
  intros H. destruct k as [p|cap|now|d|]; cbn [server13_call parsed13].
  - rewrite snd_no_output. 
    assert (NA : sstate13_eqb (xs_state c) ST_AwaitClientHello = false) by (destruct (xs_state c); [discriminate H|reflexivity..]).
    replace (snd (server13_handle_packet E p c)) with (snd (y_process E p c)).
    2:{ unfold server13_handle_packet, bind, get. rewrite NA, andb_false_r, snd_public. reflexivity. }
    destruct (y_process E p c) as [r c'] eqn:Hc. cbn [snd]. unfold y_process in Hc. unfold bind at 1 in Hc.
    destruct (yeng_eng (eng13_parse_packet E p) c) as [X1 X2].
    destruct (yeng (eng13_parse_packet E p) c) as [[[]|e|m] c1]; cbn [snd] in *; rewrite <- X1;
      [|injection Hc as <- <-; rewrite X2; split; [exact H|apply PO]..].
    pose proof (fin_y_progress c1 40 c1 ltac:(rewrite X2; exact H) ltac:(apply RY_po)) as K. unfold y_make_progress, bind in Hc.
    destruct (y_progress E 40 c1) as [[[]|e|m] c2]; cbn [snd] in *; [|injection Hc as <- <-; exact K..]. unfold get, when in Hc.
    destruct (_ && _); unfold modify, ret in Hc; injection Hc as <- <-; exact K.
  - rewrite snd_some_output. unfold server13_poll_output, bind, get. destruct (xs_events c) as [|ev l].
    + destruct (yeng_eng (eng13_poll_output cap (xs_now c)) c) as [X1 X2]. rewrite X1, X2. split; [exact H|].
      apply (unPres _ _ (ff_poll _ _ F cap (xs_now c))).
    + unfold modify. rewrite snd_event. split; [exact H|apply PO].
  - rewrite snd_no_output, tick_draws. unfold bind.
    set (c1 := draw_random13s E (set_xs_now now c)).
    assert (C1 : fin_y (xs_state c1) = true /\ RY c c1).
    { unfold c1, draw_random13s. cbn. destruct (xs_random c); (split; [exact H|]); unfold RY; cbn; [apply PO|]. apply (ff_orc _ _ F). }
    destruct (yeng_eng (eng13_handle_timeout E now) c1) as [X1 X2].
    pose proof (unPres _ _ (ff_timeout _ _ F now) (xs_eng c1)) as TO.
    destruct (yeng (eng13_handle_timeout E now) c1) as [[[]|e|m] c2]; cbn [snd] in *; rewrite <- X1 in TO.
    + rewrite snd_public. apply (fin_y_progress c 40 c2); [rewrite X2; apply C1|eapply RY_po; [apply C1|exact TO]].
    + split; [rewrite X2; apply C1|eapply PO; [apply C1|exact TO]].
    + split; [rewrite X2; apply C1|eapply PO; [apply C1|exact TO]].
  - rewrite snd_no_output. unfold server13_send, bind, get. destruct (xs_state c) eqn:Hst; try discriminate H;
      try (unfold fail; cbn [snd]; rewrite Hst; split; [reflexivity|apply PO]).
    destruct (yeng_eng (create_cipher13 E CT_APP (g_epoch (xs_eng c)) false d) c) as [X1 X2]. rewrite X1, X2, Hst.
    split; [reflexivity|]. apply (unPres _ _ (ff_cipher _ _ F _ _ _)).
  - rewrite snd_no_output. destruct (server13_close E c) as [r c'] eqn:Hc. cbn [snd]. unfold server13_close in Hc. unfold bind at 1, get in Hc.
    destruct (xs_state c) eqn:Hst; try discriminate H;
      try (unfold ret in Hc; injection Hc as <- <-; rewrite Hst; split; [reflexivity|apply PO]).
    unfold bind in Hc. destruct (yeng_eng (create_cipher13 E CT_ALERT (g_epoch (xs_eng c)) false [1; 0]) c) as [X1 X2].
    pose proof (unPres _ _ (ff_cipher _ _ F CT_ALERT (g_epoch (xs_eng c)) [1; 0]) (xs_eng c)) as TO. rewrite <- X1 in TO.
    destruct (yeng (create_cipher13 E CT_ALERT (g_epoch (xs_eng c)) false [1; 0]) c) as [[[]|e|m] c1]; cbn [snd] in *;
      [|injection Hc as <- <-; rewrite X2, Hst; split; [reflexivity|exact TO]..].
    destruct (yeng_eng cancel_flights c1) as [Y1 Y2]. pose proof (unPres _ _ (ff_cancel _ _ F) (xs_eng c1)) as TC. rewrite <- Y1 in TC.
    destruct (yeng cancel_flights c1) as [[[]|e|m] c2]; cbn [snd modify] in *; unfold modify in Hc; injection Hc as <- <-.
    + split; [reflexivity|]. eapply PO; [exact TO|exact TC].
    + split; [rewrite Y2, X2, Hst; reflexivity|]. eapply PO; [exact TO|exact TC].
    + split; [rewrite Y2, X2, Hst; reflexivity|]. eapply PO; [exact TO|exact TC].
Qed.
Lemma fin_call k s r s' : fin13 s = true -> end13_call E k s = (r, s') ->
  fin13 s' = true /\ R (parsed13 k (end13_eng s)) (end13_eng s').
Proof.
  destruct s as [c|c]; cbn [end13_call fin13 end13_eng]; intros H Hc.
  - pose proof (fin_client_call k c H) as K. destruct (client13_call E k c) as [r1 c1]. injection Hc as <- <-. exact K.
  - pose proof (fin_server_call k c H) as K. destruct (server13_call E k c) as [r1 c1]. injection Hc as <- <-. exact K.
Qed.
End FinLift.

(** ** The handshake *)

(** What the steps of the handshake do to the engine. *)
Record hs_frame13 (E : Env) (R : Eng13 -> Eng13 -> Prop) : Prop := {
  hf_po : preorder R;
  hf_orc : forall v s, R s (set_g_orc v s);
  hf_suite : forall v s, R s (set_g_suite v s);
  hf_exp : forall v s, R s (set_g_exp v s);
  hf_flight_begin : Pres R (flight_begin13 E);
  hf_create_handshake : forall mt mk, pres R mk -> Pres R (create_handshake13 E mt mk);
  hf_next : forall a b w, Pres R (next_handshake13_gen a b w);
  hf_cut_transcript : forall n s, R s (set_g_transcript (firstn n (g_transcript s)) s);
  hf_replace : forall n, Pres R (replace_transcript E n);
  hf_advance : Pres R advance_peer;
  hf_reset : Pres R reset_for_hello_retry;
  hf_install_hs : forall a b, Pres R (install_handshake_keys E a b);
  hf_install_app : forall a b, Pres R (install_application_keys E a b);
  hf_enable : Pres R (enable_peer_encryption13 E);
  hf_release : Pres R release13;
  hf_release_ret : Pres R release13_retaining;
  hf_send_ack : Pres R (send_ack13 E);
  hf_send_ack_ret : Pres R (send_ack_retransmittable E);
  hf_stop : Pres R stop_timers13 }.

Section HsLift.
Variable E : Env.
Variable R : Eng13 -> Eng13 -> Prop.
Hypothesis F : hs_frame13 E R.
Let PO : preorder R := hf_po _ _ F.
Let RX (a b : Client13) : Prop := R (xc_eng a) (xc_eng b).
Let RY (a b : Server13) : Prop := R (xs_eng a) (xs_eng b).
Let RX_po : preorder RX.
Proof. split; unfold RX; intros; [apply PO|eapply PO; eauto]. Qed.
Let RY_po : preorder RY.
Proof. split; unfold RY; intros; [apply PO|eapply PO; eauto]. Qed.

Ltac engleaf :=
  first [ apply unPres, (hf_flight_begin _ _ F) | apply unPres, (hf_create_handshake _ _ F) | apply unPres, (hf_next _ _ F)
        | apply unPres, (hf_replace _ _ F) | apply unPres, (hf_advance _ _ F) | apply unPres, (hf_reset _ _ F)
        | apply unPres, (hf_install_hs _ _ F) | apply unPres, (hf_install_app _ _ F) | apply unPres, (hf_enable _ _ F)
        | apply unPres, (hf_release _ _ F) | apply unPres, (hf_release_ret _ _ F)
        | apply unPres, (hf_send_ack _ _ F) | apply unPres, (hf_send_ack_ret _ _ F) | apply unPres, (hf_stop _ _ F)
        | apply op_draw13; [exact PO|apply F] | apply op_rand13; [exact PO|apply F]
        | apply (op_derive_hs E _ PO) | apply (op_derive_app E _ PO), (hf_exp _ _ F)
        | apply (op_verify_data E _ PO) | apply (op_transcript_hash E _ PO) | apply (op_keying E _ PO)
        | apply (fr_create_ch13 E _ PO) | apply (fr_create_cert13 _ PO)
        | apply (fr_create_cv13 E _ PO), (hf_orc _ _ F) | apply (fr_check_cv13 E _ PO)
        | apply pres_modify; intro; apply (hf_suite _ _ F)
        | apply pres_modify; intro; apply (hf_cut_transcript _ _ F) ].
Ltac xleaf :=
  first [ assumption
        | apply (lf_xeng R); solve [presauto PO engleaf]
        | apply pres_modify; intro; unfold RX; cbn; apply PO ].
Lemma hs_hrr_extensions es : pres RX (hrr_extensions es).
Proof. induction es as [|[t d] es IH]; cbn [hrr_extensions]; presauto RX_po xleaf. Qed.
Lemma hs_ee13_extensions es : pres RX (ee13_extensions es).
Proof. induction es as [|[t d] es IH]; cbn [ee13_extensions]; presauto RX_po xleaf. Qed.
Lemma hs_x_step st : fin_x st = false -> pres RX (x_step E st).
Proof.
  destruct st; try discriminate; intros _; cbn [x_step];
    unfold x_send_client_hello, x_await_server_hello, x_hello_retry, x_server_hello,
      x_await_encrypted_extensions, x_await_certificate_request, x_await_certificate,
      x_await_certificate_verify, x_await_finished, x_send_certificate, x_send_certificate_verify,
      x_send_finished, next_handshake13, next_handshake13_no_transcript;
    presauto RX_po ltac:(first [apply hs_hrr_extensions | apply hs_ee13_extensions | xleaf]).
Qed.
Lemma hs_create_sh13 a b c d e : pres R (create_server_hello13 a b c d e).
Proof. unfold create_server_hello13. presauto PO idtac. Qed.
Ltac yleaf :=
  first [ assumption
        | apply (lf_yeng R); solve [presauto PO ltac:(first [apply hs_create_sh13|engleaf])]
        | apply pres_modify; intro; unfold RY; cbn; apply PO ].
Lemma hs_y_retry a b c : pres RY (y_retry E a b c).
Proof. unfold y_retry, send_hello_retry. presauto RY_po yleaf. Qed.
Lemma hs_y_accept a b c d : pres RY (y_accept_hello E a b c d).
Proof. unfold y_accept_hello. presauto RY_po yleaf. Qed.
Lemma hs_y_select a b c : pres RY (y_select E a b c).
Proof.
  unfold y_select, cookie13. presauto RY_po ltac:(first [apply hs_y_retry|apply hs_y_accept|yleaf]).
Qed.
Lemma hs_y_step st : fin_y st = false -> pres RY (y_step E st).
Proof.
  destruct st; try discriminate; intros _; cbn [y_step];
    unfold y_await_client_hello, y_send_server_hello, y_send_encrypted_extensions,
      y_send_certificate_request, y_send_certificate, y_send_certificate_verify, y_send_finished,
      y_await_certificate, y_await_certificate_verify, y_await_finished,
      next_client_hello_auto, next_handshake13, next_handshake13_no_transcript;
    presauto RY_po ltac:(first [apply hs_y_select | yleaf]).
Qed.
End HsLift.
