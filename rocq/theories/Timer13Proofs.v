(** Proofs about the timers of a DTLS 1.3 endpoint. *)
From Verif Require Import Prelude PreludeFacts Types Codec Codec12 Codec13 Record12 Record13 Env Config Aead Prf Monad MonadFacts
  Timer Window SeqRecon Engine12 Client12 Engine13 Client13 Server13 History12 History12Facts History13 Frame13 Lift13 Index13
  Send13Proofs Trace13 Trace13Proofs Out13 Timer12Proofs Wait12Proofs NoTime13.

(** ** The overall deadline *)

(** The configuration and the overall deadline stay. *)
Definition Rk (a b : Eng13) : Prop := g_cfg b = g_cfg a /\ g_connect b = g_connect a.
Lemma Rk_po : preorder Rk.
Proof. split; unfold Rk; [auto|]. intros a b c [-> ->] [-> ->]. auto. Qed.
Ltac kpre := first [exact Rk_po | intros; split; reflexivity | intros; assumption].

Section Keep.
Variable E : Env.
Let RX := RX Rk.
Let RY := RY Rk.
Let RX_po : preorder RX.
Proof. split; unfold RX, Lift13.RX; intros; [apply Rk_po|eapply Rk_po; eauto]. Qed.
Let RY_po : preorder RY.
Proof. split; unfold RY, Lift13.RY; intros; [apply Rk_po|eapply Rk_po; eauto]. Qed.

Ltac engleaf :=
  first [ lazymatch goal with
          | |- pres _ (derive_handshake_secrets _ _) => apply (op_derive_hs E _ Rk_po)
          | |- pres _ (derive_application_secrets _ _) => apply (op_derive_app E _ Rk_po); intros; split; reflexivity
          | |- pres _ (compute_verify_data _ _) => apply (op_verify_data E _ Rk_po)
          | |- pres _ (transcript_hash13 _) => apply (op_transcript_hash E _ Rk_po)
          | |- pres _ (keying13 _ _) => apply (op_keying E _ Rk_po)
          | |- pres _ (create_client_hello13 _ _ _ _ _) => apply (fr_create_ch13 E _ Rk_po)
          | |- pres _ (create_certificate13 _) => apply (fr_create_cert13 _ Rk_po)
          | |- pres _ (create_certificate_verify13 _ _) => apply (fr_create_cv13 E _ Rk_po); intros; split; reflexivity
          | |- pres _ (check_certificate_verify _ _ _ _ _ _) => apply (fr_check_cv13 E _ Rk_po)
          | |- pres _ (create_server_hello13 _ _ _ _ _) => unfold create_server_hello13; presauto Rk_po idtac
          | |- pres _ (modify _) => apply pres_modify; intros; split; reflexivity
          end
        | solve [fr13 kpre] ].
Ltac hs := lazymatch goal with
  | |- pres _ (create_handshake13 _ _ _) => apply fr_create_handshake13; first [solve [presauto Rk_po engleaf] | kpre]
  | |- pres _ (if ?b then _ else _) => destruct b; engleaf
  | _ => engleaf end.
Ltac xleaf :=
  first [ assumption
        | apply (lf_xeng Rk); solve [presauto Rk_po hs]
        | apply pres_modify; intro; split; reflexivity ].
Lemma k_hrr_extensions es : pres RX (hrr_extensions es).
Proof. induction es as [|[t d] es IH]; cbn [hrr_extensions]; presauto RX_po xleaf. Qed.
Lemma k_ee13_extensions es : pres RX (ee13_extensions es).
Proof. induction es as [|[t d] es IH]; cbn [ee13_extensions]; presauto RX_po xleaf. Qed.
Lemma k_x_step st : pres RX (x_step E st).
Proof.
  destruct st; cbn [x_step];
    unfold x_send_client_hello, x_await_server_hello, x_hello_retry, x_server_hello,
      x_await_encrypted_extensions, x_await_certificate_request, x_await_certificate,
      x_await_certificate_verify, x_await_finished, x_send_certificate, x_send_certificate_verify,
      x_send_finished, x_await_application_data, x_half_closed_local, next_handshake13,
      next_handshake13_no_transcript;
    presauto RX_po ltac:(first [apply k_hrr_extensions | apply k_ee13_extensions | xleaf]).
Qed.
Lemma k_x_progress n : pres RX (x_progress E n).
Proof. induction n as [|n IH]; cbn [x_progress]; presauto RX_po ltac:(first [apply k_x_step | xleaf]). Qed.
Ltac yleaf :=
  first [ assumption
        | apply (lf_yeng Rk); solve [presauto Rk_po hs]
        | apply pres_modify; intro; split; reflexivity ].
(** The steps of the server that do not stop the timers. *)
Definition keeps_y (st : SState13) : bool := match st with ST_AwaitCertificate | ST_AwaitFinished => false | _ => true end.
Lemma k_y_step st : keeps_y st = true -> pres RY (y_step E st).
Proof.
  destruct st; try discriminate; intros _; cbn [y_step]; unfold y_await_client_hello, y_select, y_accept_hello, y_retry, send_hello_retry, cookie13,
      y_send_server_hello, y_send_encrypted_extensions,
      y_send_certificate_request, y_send_certificate, y_send_certificate_verify, y_send_finished,
      y_await_certificate, y_await_certificate_verify, y_await_finished, y_await_application_data,
      y_half_closed_local, next_client_hello_auto, next_handshake13, next_handshake13_no_transcript;
    presauto RY_po yleaf.
Qed.
End Keep.

Definition armed13 (now : N) (e : Eng13) : Timeout :=
  match g_connect e with Unarmed => Armed (now + c_hs_timeout (g_cfg e)) | t => t end.

Lemma k_resend E : pres Rk (flight_resend13 E).
Proof. fr13 kpre. Qed.
Lemma k_flush E now : pres Rk (maybe_flush_ack E now).
Proof. fr13 kpre. Qed.
Lemma k_parse E p : pres Rk (eng13_parse_packet E p).
Proof. fr13 kpre. Qed.
Lemma k_poll cap now : pres Rk (eng13_poll_output cap now).
Proof. fr13 kpre. Qed.
Lemma k_cipher E ct ep fr : pres Rk (create_cipher13 E ct ep false fr).
Proof. fr13 kpre. Qed.

(** What follows in [handle_timeout] once the timers are armed. *)
Definition timeout_rest (E : Env) (now : N) : M Eng13 unit :=
  let! s := get in
  match g_flight s with
  | Armed f =>
    (if f <=? now then
       if backoff_can_retry (g_bo s) then
         let! t := draw13 in
         modify (fun s => set_g_bo (backoff_attempt (g_bo s) (e_jitter E t)) s) ;;;
         modify (fun s => set_g_flight (Armed (now + backoff_rto (g_bo s))) s) ;;;
         flight_resend13 E
       else fail (ETimeout TO_Handshake)
     else ret tt) ;;;
    modify (maybe_schedule_ack now) ;;;
    maybe_flush_ack E now
  | _ => ret tt
  end.
Definition arm13 (now : N) (e : Eng13) : Eng13 :=
  let e1 := if timeout_is_unarmed (g_connect e) then set_g_connect (Armed (now + c_hs_timeout (g_cfg e))) e else e in
  if timeout_is_unarmed (g_flight e) then set_g_flight (Armed (now + backoff_rto (g_bo e))) e1 else e1.
Lemma timeout13_unfold E now e : eng13_handle_timeout E now e =
  if due (g_connect (arm13 now e)) now then (Err (ETimeout TO_Connect), arm13 now e) else timeout_rest E now (arm13 now e).
Proof.
  unfold eng13_handle_timeout, timeout_rest, arm13, when. unfold bind, get, modify, ret, fail.
  destruct (timeout_is_unarmed (g_connect e)), (timeout_is_unarmed (g_flight e)); cbv beta iota zeta; unfold due;
    match goal with |- _ = if ?b then _ else _ => destruct b end; reflexivity.
Qed.
Lemma arm13_connect now e : g_cfg (arm13 now e) = g_cfg e /\ g_connect (arm13 now e) = armed13 now e.
Proof.
  unfold arm13, armed13. destruct (g_connect e) eqn:K; cbn [timeout_is_unarmed]; destruct (timeout_is_unarmed (g_flight e)); cbn; auto.
Qed.
Lemma k_rest E now : pres Rk (timeout_rest E now).
Proof.
  unfold timeout_rest. presauto Rk_po ltac:(first [apply op_draw13; kpre | apply k_resend | apply k_flush
    | apply pres_modify; intro; first [split; reflexivity | match goal with |- context [maybe_schedule_ack _ ?s] => destruct (maybe_ack_set now s) as (d & ->); split; reflexivity end] ]).
Qed.
Lemma nt_rest E now s : fst (timeout_rest E now s) <> Err (ETimeout TO_Connect).
Proof.
  unfold timeout_rest. unfold bind at 1, get. destruct (g_flight s) as [| |f]; try discriminate.
  unfold bind at 1. destruct (f <=? now).
  - destruct (backoff_can_retry (g_bo s)).
    + assert (N : noto (let! t := draw13 in
         modify (fun s => set_g_bo (backoff_attempt (g_bo s) (e_jitter E t)) s) ;;;
         modify (fun s => set_g_flight (Armed (now + backoff_rto (g_bo s))) s) ;;;
         flight_resend13 E)).
      { pose proof nt_draw13. pose proof (nt_resend13 E). repeat first [noto1 | assumption]. }
      specialize (N s TO_Connect). match type of N with fst ?x <> _ => destruct x as [[u|e|n] s1] end; [|exact N|discriminate].
      unfold bind, modify. apply (nt_flush E now _ TO_Connect).
    + cbn. discriminate.
  - unfold ret, bind, modify. apply (nt_flush E now _ TO_Connect).
Qed.
Lemma timeout_connect E now e r e' : eng13_handle_timeout E now e = (r, e') ->
  g_cfg e' = g_cfg e /\ g_connect e' = armed13 now e /\ (due (armed13 now e) now = true <-> r = Err (ETimeout TO_Connect)).
Proof.
  rewrite timeout13_unfold. destruct (arm13_connect now e) as [K1 K2]. rewrite K2. destruct (due (armed13 now e) now).
  - intros [= <- <-]. repeat split; auto.
  - intros H. pose proof (k_rest E now (arm13 now e)) as [P1 P2]. pose proof (nt_rest E now (arm13 now e)) as P3.
    rewrite H in P1, P2, P3. cbn [fst snd] in *. split; [congruence|]. split; [congruence|].
    split; [discriminate|]. intros ->. destruct P3. reflexivity.
Qed.

(** *** Clients *)

Section KeepClient.
Variable E : Env.
Let RX := RX Rk.
Let RX_po : preorder RX.
Proof. split; unfold RX, Lift13.RX; intros; [apply Rk_po|eapply Rk_po; eauto]. Qed.
Ltac xleaf :=
  first [ assumption
        | apply (lf_xeng Rk); first [apply k_parse | apply k_poll | apply k_cipher]
        | apply pres_modify; intro; split; reflexivity ].
Lemma k_client_call k : (forall now, k <> Tick now) -> k <> Close -> pres RX (client13_call E k).
Proof.
  intros NT NC. destruct k as [p|cap|now|d|]; cbn [client13_call]; [| |exfalso; eapply NT; reflexivity| |congruence];
    unfold no_output, some_output, client13_handle_packet, client13_poll_output, client13_send, x_make_progress;
    presauto RX_po ltac:(first [apply lf_public | apply k_x_progress | apply (lf_event _ RX_po) | xleaf]).
Qed.
End KeepClient.
Lemma draw_eng13 E now c : exists o, xc_eng (draw_random13 E (set_xc_now now c)) = set_g_orc o (xc_eng c).
Proof.
  unfold draw_random13. destruct c. cbn. destruct xc_random; [|eexists; reflexivity].
  exists (g_orc xc_eng). destruct xc_eng. reflexivity.
Qed.
Lemma k_client_tick E now c r c' : client13_call E (Tick now) c = (r, c') ->
  g_cfg (xc_eng c') = g_cfg (xc_eng c) /\ g_connect (xc_eng c') = armed13 now (xc_eng c) /\
  (due (armed13 now (xc_eng c)) now = true <-> r = Err (ETimeout TO_Connect)).
Proof.
  cbn [client13_call]. unfold no_output. unfold bind at 1. rewrite tick_draw. unfold bind at 1.
  destruct (draw_eng13 E now c) as [o Ho]. unfold xeng, zoom. rewrite Ho.
  destruct (eng13_handle_timeout E now (set_g_orc o (xc_eng c))) as [rt e] eqn:Ht.
  destruct (timeout_connect _ _ _ _ _ Ht) as (K1 & K2 & K3).
  change (g_cfg (set_g_orc o (xc_eng c))) with (g_cfg (xc_eng c)) in *.
  change (armed13 now (set_g_orc o (xc_eng c))) with (armed13 now (xc_eng c)) in *.
  destruct rt as [[]|x|n].
  - unfold public, x_make_progress.
    pose proof (k_x_progress E 40 (set_xc_eng e (draw_random13 E (set_xc_now now c)))) as [P1 P2].
    pose proof (nt_x_prog E 40 (set_xc_eng e (draw_random13 E (set_xc_now now c))) TO_Connect) as P3.
    cbn [xc_eng set_xc_eng] in P1, P2. destruct (x_progress E 40 _) as [[[]|x|n] c1]; cbn [fst snd] in *.
    + intros [= <- <-]. split; [congruence|]. split; [congruence|]. split; [intros K; apply K3 in K; discriminate|discriminate].
    + destruct x; intros [= <- <-]; (split; [congruence|]; split; [congruence|]; split; [intros K; apply K3 in K; discriminate|]); try discriminate.
      intros [= ->]. destruct P3. reflexivity.
    + intros [= <- <-]. split; [congruence|]. split; [congruence|]. split; [intros K; apply K3 in K; discriminate|discriminate].
  - intros [= <- <-]. cbn [xc_eng set_xc_eng]. split; [exact K1|]. split; [exact K2|]. rewrite K3. split; intros [= ->]; reflexivity.
  - intros [= <- <-]. cbn [xc_eng set_xc_eng]. split; [exact K1|]. split; [exact K2|]. rewrite K3. split; discriminate.
Qed.

(** The deadline of a client that was never closed. *)
Definition deadline13 (e : Eng13) (h : list (Call * Reply)) : Timeout :=
  match g_connect e with
  | Unarmed => match first_tick h with Some t => Armed (t + c_hs_timeout (g_cfg e)) | None => Unarmed end
  | t => t
  end.
Lemma client_deadline E c0 h s : history13 E (XC c0) h s -> ~ In Close (map fst h) ->
  exists c, s = XC c /\ g_cfg (xc_eng c) = g_cfg (xc_eng c0) /\ g_connect (xc_eng c) = deadline13 (xc_eng c0) h.
Proof.
  induction 1 as [|h s k r s' H IH NP C]; intros NC.
  { exists c0. split; [reflexivity|]. split; [reflexivity|]. unfold deadline13. cbn. destruct (g_connect _); reflexivity. }
  rewrite map_app in NC. destruct IH as (c & -> & I1 & I2); [intro; apply NC, in_or_app; auto|].
  cbn [end13_call] in C. destruct (client13_call E k c) as [r1 c1] eqn:Hk. injection C as <- <-. exists c1. split; [reflexivity|].
  assert (Kc : k <> Close) by (intros ->; apply NC, in_or_app; right; left; reflexivity).
  destruct k as [p|cap|now|d|]; [| | | |congruence].
  all: try (match type of Hk with client13_call _ ?k _ = _ => assert (P0 : forall now, k <> Tick now) by discriminate end;
    pose proof (k_client_call E _ P0 Kc c) as [P1 P2]; rewrite Hk in P1, P2; cbn [snd] in P1, P2;
    split; [congruence|]; rewrite P2, I2; unfold deadline13; rewrite first_tick_app; cbn; destruct (first_tick h); reflexivity).
  destruct (k_client_tick _ _ _ _ _ Hk) as (K1 & K2 & _). split; [congruence|].
  rewrite K2. unfold armed13. rewrite I2, I1. unfold deadline13. rewrite first_tick_app. cbn.
  destruct (g_connect (xc_eng c0)); try reflexivity. destruct (first_tick h); reflexivity.
Qed.

(** *** Servers that ask for no client certificate *)

(** A step keeps the configuration and [xs_auth]; it keeps the deadline and the
    events too, or the handshake finished. *)
Definition RF (a b : Server13) : Prop :=
  g_cfg (xs_eng b) = g_cfg (xs_eng a) /\ xs_auth b = xs_auth a /\
  (g_connect (xs_eng b) = g_connect (xs_eng a) \/ In LE_Connected (xs_events b)) /\
  (In LE_Connected (xs_events a) -> In LE_Connected (xs_events b)).
Lemma RF_po : preorder RF.
Proof.
  split; unfold RF; [intuition|]. intros a b c (A1 & A2 & A3 & A4) (B1 & B2 & B3 & B4).
  split; [congruence|]. split; [congruence|]. split; [|auto]. destruct B3 as [B3|B3]; [|auto]. destruct A3 as [A3|A3]; [|auto]. left. congruence.
Qed.
Lemma rf_eng {A} (m : M Eng13 A) : pres Rk m -> pres RF (yeng m).
Proof. apply pres_zoom. intros s t [H1 H2]. split; [exact H1|]. split; [reflexivity|]. split; [left; exact H2|exact (fun H => H)]. Qed.
Lemma rf_stop {A} (m : M Server13 A) : pres RF m ->
  pres RF (yeng stop_timers13 ;;; modify (fun s => set_xs_events (xs_events s ++ [LE_Connected]) s) ;;; m).
Proof.
  intros P s. unfold bind, yeng, zoom, stop_timers13, modify.
  match goal with |- RF s (snd (m ?x)) => specialize (P x); assert (K : RF s x) end.
  { repeat split; [right|]; cbn; intros; apply in_or_app; [right; left; reflexivity|left; assumption]. }
  exact (po_trans _ RF_po _ _ _ K P).
Qed.
Section KeepServer.
Variable E : Env.
Ltac engleaf :=
  first [ lazymatch goal with
          | |- pres _ (derive_handshake_secrets _ _) => apply (op_derive_hs E _ Rk_po)
          | |- pres _ (derive_application_secrets _ _) => apply (op_derive_app E _ Rk_po); intros; split; reflexivity
          | |- pres _ (compute_verify_data _ _) => apply (op_verify_data E _ Rk_po)
          | |- pres _ (transcript_hash13 _) => apply (op_transcript_hash E _ Rk_po)
          | |- pres _ (keying13 _ _) => apply (op_keying E _ Rk_po)
          | |- pres _ (create_certificate13 _) => apply (fr_create_cert13 _ Rk_po)
          | |- pres _ (create_certificate_verify13 _ _) => apply (fr_create_cv13 E _ Rk_po); intros; split; reflexivity
          | |- pres _ (check_certificate_verify _ _ _ _ _ _) => apply (fr_check_cv13 E _ Rk_po)
          | |- pres _ (create_server_hello13 _ _ _ _ _) => unfold create_server_hello13; presauto Rk_po idtac
          | |- pres _ (modify _) => apply pres_modify; intros; split; reflexivity
          end
        | solve [fr13 kpre] ].
Ltac hs := lazymatch goal with
  | |- pres _ (create_handshake13 _ _ _) => apply fr_create_handshake13; first [solve [presauto Rk_po engleaf] | kpre]
  | |- pres _ (if ?b then _ else _) => destruct b; engleaf
  | _ => engleaf end.
Ltac yleaf :=
  first [ assumption
        | apply rf_eng; solve [presauto Rk_po hs]
        | apply pres_modify; intro; repeat split; try (left; reflexivity); intros; try assumption; cbn; apply in_or_app; left; assumption ].
Definition free_y (st : SState13) : bool :=
  match st with ST_SendCertificateRequest | ST_AwaitCertificate | ST_AwaitCertificateVerify => false | _ => true end.
Lemma rf_y_step st : free_y st = true -> pres RF (y_step E st).
Proof.
  destruct st; try discriminate; intros _; cbn [y_step]; unfold y_await_client_hello, y_select, y_accept_hello, y_retry, send_hello_retry, cookie13,
      y_send_server_hello, y_send_encrypted_extensions, y_send_certificate, y_send_certificate_verify, y_send_finished,
      y_await_finished, y_await_application_data,
      y_half_closed_local, next_client_hello_auto, next_handshake13, next_handshake13_no_transcript.
  all: repeat first [ lazymatch goal with |- pres _ (bind (yeng stop_timers13) _) => apply rf_stop end | presstep RF_po yleaf ].
Qed.
Lemma free_y_next st c : free_y st = true -> xs_auth c = false -> c_req_cert (g_cfg (xs_eng c)) = false ->
  match fst (y_step E st c) with Ok st' => free_y st' = true | _ => True end.
Proof.
  intros H Ha Hr. destruct st; try discriminate; cbn [y_step].
  all: try solve [lazymatch goal with |- match fst (?m ?x) with _ => _ end =>
    assert (K : rets (fun st' => free_y st' = true) m); [|exact (K x)] end;
    unfold y_await_client_hello, y_select, y_accept_hello, y_retry, send_hello_retry, cookie13,
      y_send_server_hello, y_send_certificate, y_send_certificate_verify, 
      y_await_finished, y_await_application_data,
      y_half_closed_local; rets ltac:(first [reflexivity | match goal with |- free_y (if ?b then _ else _) = true => destruct b; reflexivity end])].
  - unfold y_send_encrypted_extensions, bind at 1, get. cbv beta iota. rewrite Hr. lazymatch goal with |- match fst (?m ?x) with _ => _ end =>
      assert (K : rets (fun st' => free_y st' = true) m); [rets reflexivity|exact (K x)] end.
  - unfold y_send_finished, bind at 1, get. cbv beta iota. rewrite Ha. lazymatch goal with |- match fst (?m ?x) with _ => _ end =>
      assert (K : rets (fun st' => free_y st' = true) m); [rets reflexivity|exact (K x)] end.
Qed.
End KeepServer.

Definition connected_s (os : list Output) (c : Server13) : Prop := In OConnected os \/ In LE_Connected (xs_events c).
Definition JS (cfg : Config) (v : Timeout) (os : list Output) (c : Server13) : Prop :=
  g_cfg (xs_eng c) = cfg /\ xs_auth c = false /\ free_y (xs_state c) = true /\
  (g_connect (xs_eng c) = v \/ connected_s os c).
Lemma js_step E cfg v os c r c' : c_req_cert cfg = false -> JS cfg v os c -> y_step E (xs_state c) c = (r, c') ->
  match r with Ok st => JS cfg v os (set_xs_state st c') | _ => JS cfg v os c' end.
Proof.
  intros Hr (H1 & H2 & H3 & H4) Hs. pose proof (rf_y_step E _ H3 c) as (P1 & P2 & P3 & P4).
  pose proof (free_y_next E _ c H3 H2) as P5. rewrite H1 in P5. specialize (P5 Hr).
  pose proof (y_step_state E (xs_state c) c) as P6.
  rewrite Hs in P1, P2, P3, P4, P5, P6. cbn [fst snd] in *.
  assert (K : g_connect (xs_eng c') = v \/ connected_s os c').
  { destruct P3 as [P3|P3]; [|right; right; exact P3]. destruct H4 as [H4|[H4|H4]]; [left; congruence|right; left; exact H4|right; right; auto]. }
  destruct r as [st|e|n]; split; try (exact (eq_trans P1 H1)); split; try (exact (eq_trans P2 H2)); (split; [|exact K]);
    [exact P5|rewrite <- P6; exact H3..].
Qed.
Lemma js_eng cfg v os c e : Rk (xs_eng c) e -> JS cfg v os c -> JS cfg v os (set_xs_eng e c).
Proof. intros [K1 K2] (H1 & H2 & H3 & H4). split; [cbn; congruence|]. split; [exact H2|]. split; [exact H3|]. destruct H4; [left; cbn; congruence|right; assumption]. Qed.
Lemma draw_eng13s E now c : exists o, xs_eng (draw_random13s E (set_xs_now now c)) = set_g_orc o (xs_eng c).
Proof.
  unfold draw_random13s. destruct c. cbn. destruct xs_random; [|eexists; reflexivity].
  exists (g_orc xs_eng). destruct xs_eng. reflexivity.
Qed.
Lemma js_draw E cfg v os now c : JS cfg v os c -> JS cfg v os (draw_random13s E (set_xs_now now c)).
Proof.
  intros (H1 & H2 & H3 & H4). unfold draw_random13s. destruct c. cbn in *. destruct xs_random; repeat split; assumption.
Qed.
Lemma server_connected E cfg c0 h s : c_req_cert cfg = false -> JS cfg Unarmed [] c0 ->
  history13 E (XS c0) h s -> ~ In Close (map fst h) ->
  exists c, s = XS c /\ JS cfg (match first_tick h with Some t => Armed (t + c_hs_timeout cfg) | None => Unarmed end) (outputs h) c.
Proof.
  intros Hr H0 H. induction H as [|h s k r s' H IH NP C]; intros NC; [exists c0; auto|].
  rewrite map_app in NC. destruct IH as (c & -> & IH); [intro; apply NC, in_or_app; auto|].
  cbn [end13_call] in C. destruct (server13_call E k c) as [r1 c1] eqn:Hk. injection C as <- <-. exists c1. split; [reflexivity|].
  assert (Kc : k <> Close) by (intros ->; apply NC, in_or_app; right; left; reflexivity).
  set (v := match first_tick h with Some t => Armed (t + c_hs_timeout cfg) | None => Unarmed end) in *.
  rewrite outputs_snoc, first_tick_app.
  destruct k as [p|cap|now|d|]; [| | | |congruence]; cbn [first_tick].
  1,2,4: replace (match match first_tick h with Some t => Some t | None => None end with Some t => Armed (t + c_hs_timeout cfg) | None => Unarmed end)
    with v by (unfold v; destruct (first_tick h); reflexivity).
  - cbn [server13_call] in Hk. unfold no_output, bind in Hk.
    assert (G : JS cfg v (outputs h) (snd (server13_handle_packet E p c))).
    { unfold server13_handle_packet, bind, get.
      assert (G : forall x, JS cfg v (outputs h) x -> JS cfg v (outputs h) (snd (public (y_process E p) x))).
      { intros x Hx. apply (bo_process E (JS cfg v)).
        - intros w os y (A1 & A2 & A3 & A4). repeat split; assumption.
        - intros w os y (A1 & A2 & A3 & A4). repeat split; assumption.
        - intros os y ry y'. apply js_step. exact Hr.
        - unfold yeng, zoom. pose proof (k_parse E p (xs_eng x)) as K. destruct (eng13_parse_packet E p (xs_eng x)). apply js_eng; assumption. }
      destruct (_ && _); [|apply G, IH]. destruct (_ <=? _); [exact IH|]. unfold modify. apply G.
      destruct IH as (A1 & A2 & A3 & A4). repeat split; assumption. }
    destruct (server13_handle_packet E p c) as [[[]|e|n] c2]; injection Hk as <- <-; rewrite app_nil_r; exact G.
  - cbn [server13_call] in Hk. unfold some_output, server13_poll_output, bind, get in Hk. cbv beta iota in Hk.
    destruct (xs_events c) as [|ev l] eqn:He.
    + unfold yeng, zoom in Hk. pose proof (k_poll cap (xs_now c) (xs_eng c)) as K.
      destruct (eng13_poll_output cap (xs_now c) (xs_eng c)) as [ro e]. cbn [snd] in K.
      assert (G : JS cfg v (outputs h) (set_xs_eng e c)) by (apply js_eng; assumption).
      destruct G as (A1 & A2 & A3 & A4).
      destruct ro as [o|x|n]; injection Hk as <- <-; split; [exact A1| |exact A1| |exact A1|]; (split; [exact A2|]; split; [exact A3|]);
        (destruct A4 as [A4|[A4|A4]]; [left; exact A4|right; left; apply in_or_app; left; exact A4|right; right; exact A4]).
    + unfold modify in Hk.
      assert (S0 : forall w ro w', event12_output ev cap (xs_certs c) (w : Server13) = (ro, w') -> w' = w /\ (ev = LE_Connected -> ro = Ok OConnected)).
      { intros w ro w'. destruct ev; cbn [event12_output]; unfold bind, ret, panic, get; repeat match goal with |- context [match ?x with _ => _ end] => destruct x end;
          intros [= <- <-]; split; auto; discriminate. }
      destruct (event12_output ev cap (xs_certs c) (set_xs_events l c)) as [ro c2] eqn:Hev.
      destruct (S0 _ _ _ Hev) as [-> Ho].
      destruct IH as (A1 & A2 & A3 & A4).
      assert (G : g_connect (xs_eng c) = v \/ connected_s (outputs h ++ match ro with Ok o => [o] | _ => [] end) (set_xs_events l c)).
      { destruct A4 as [A4|[A4|A4]]; [left; exact A4|right; left; apply in_or_app; left; exact A4|].
        rewrite He in A4. destruct A4 as [A4|A4]; [|right; right; exact A4]. rewrite (Ho A4). right. left. apply in_or_app. right. left. reflexivity. }
      destruct ro as [o|x|n]; injection Hk as <- <-; repeat split; assumption.
  - cbn [server13_call] in Hk. unfold no_output, server13_send, bind, get in Hk. cbv beta iota in Hk.
    assert (G : JS cfg v (outputs h) c1 /\ match r1 with Ok (Some o) => [o] | _ => @nil Output end = []).
    { destruct (xs_state c); unfold fail, modify, yeng, zoom in Hk;
        try (injection Hk as <- <-; split; [|reflexivity]; destruct IH as (A1 & A2 & A3 & A4); repeat split; assumption).
      pose proof (k_cipher E CT_APP (g_epoch (xs_eng c)) d (xs_eng c)) as K.
      destruct (create_cipher13 E CT_APP (g_epoch (xs_eng c)) false d (xs_eng c)) as [[[]|x|n] e]; injection Hk as <- <-; (split; [apply js_eng; assumption|reflexivity]). }
    destruct G as [G ->]. rewrite app_nil_r. exact G.
  - cbn [server13_call] in Hk. unfold no_output in Hk. unfold bind at 1 in Hk. rewrite tick_draws in Hk. unfold bind at 1 in Hk.
    destruct (draw_eng13s E now c) as [o Ho]. pose proof (js_draw E _ _ _ now _ IH) as IH'.
    set (y := draw_random13s E (set_xs_now now c)) in *. unfold yeng, zoom in Hk. rewrite Ho in Hk.
    destruct (eng13_handle_timeout E now (set_g_orc o (xs_eng c))) as [rt e] eqn:Ht.
    destruct (timeout_connect _ _ _ _ _ Ht) as (K1 & K2 & _).
    change (g_cfg (set_g_orc o (xs_eng c))) with (g_cfg (xs_eng c)) in *.
    change (armed13 now (set_g_orc o (xs_eng c))) with (armed13 now (xs_eng c)) in *.
    set (v' := match match first_tick h with Some t => Some t | None => Some now end with Some t => Armed (t + c_hs_timeout cfg) | None => Unarmed end).
    assert (G : JS cfg v' (outputs h) (set_xs_eng e y)).
    { destruct IH as (A1 & _ & _ & A4). destruct IH' as (_ & A2 & A3 & A4'). split; [cbn; congruence|]. split; [exact A2|]. split; [exact A3|].
      assert (D : g_connect (xs_eng y) = v \/ connected_s (outputs h) y) by exact A4'. rewrite Ho in D. destruct D as [D|D]; [left|right; exact D].
      cbn [set_xs_eng xs_eng]. rewrite K2. unfold armed13, v'. change (g_connect (set_g_orc o (xs_eng c))) with (g_connect (xs_eng c)) in D.
      rewrite D, A1. unfold v. destruct (first_tick h); reflexivity. }
    assert (Z : JS cfg v' (outputs h) c1 /\ match r1 with Ok (Some o) => [o] | _ => @nil Output end = []).
    { destruct rt as [[]|x|n]; [|injection Hk as <- <-; split; [exact G|reflexivity]..].
      unfold public, y_make_progress in Hk.
      pose proof (bo_progress E (JS cfg v') (fun os y ry y' => js_step E cfg v' os y ry y' Hr) (outputs h) 40 _ G) as P.
      destruct (y_progress E 40 (set_xs_eng e y)) as [[[]|x|n] c2]; cbn [snd] in P; [| destruct x |];
        injection Hk as <- <-; (split; [exact P|reflexivity]). }
    destruct Z as [Z ->]. rewrite app_nil_r. exact Z.
Qed.
Lemma server_tick E now c : due (armed13 now (xs_eng c)) now = true ->
  fst (server13_call E (Tick now) c) = Err (ETimeout TO_Connect).
Proof.
  intros D. cbn [server13_call]. unfold no_output. unfold bind at 1. rewrite tick_draws. unfold bind at 1.
  destruct (draw_eng13s E now c) as [o Ho]. unfold yeng, zoom. rewrite Ho.
  destruct (eng13_handle_timeout E now (set_g_orc o (xs_eng c))) as [rt e] eqn:Ht.
  destruct (timeout_connect _ _ _ _ _ Ht) as (_ & _ & K3). rewrite (proj1 K3 D). reflexivity.
Qed.

(** *** The deadline is never another one *)

Definition Rd (a b : Eng13) : Prop := g_cfg b = g_cfg a /\ (g_connect b = g_connect a \/ g_connect b = Disabled).
Lemma Rd_po : preorder Rd.
Proof. split; unfold Rd; [auto|]. intros a b c [-> A] [-> B]. intuition congruence. Qed.
Ltac dpre := first [exact Rd_po | intros; split; [reflexivity|left; reflexivity] | intros; split; [reflexivity|right; reflexivity] | intros; assumption].
Lemma Rk_Rd a b : Rk a b -> Rd a b.
Proof. intros [H1 H2]. split; auto. Qed.
Lemma d_step E : step_frame13 E Rd.
Proof.
  constructor; fr13o ltac:(idtac; lazymatch goal with
    | |- pres _ stop_timers13 => intros s; split; [reflexivity|right; reflexivity]
    end) ltac:(dpre).
Qed.
Section OtherCalls.
Variable E : Env.
Let F : step_frame13 E Rd := d_step E.
Let RX := RX Rd.
Let RY := RY Rd.
Let RX_po : preorder RX := RX_po E Rd F.
Let RY_po : preorder RY := RY_po E Rd F.
Lemma d_cancel : pres Rd cancel_flights.
Proof. intro s. split; [reflexivity|right; reflexivity]. Qed.
Lemma d_abort : pres Rd eng13_abort.
Proof. intro s. split; [reflexivity|right; reflexivity]. Qed.
Ltac engleaf := first [apply (pres_mono _ _ _ Rk_Rd), k_parse | apply (pres_mono _ _ _ Rk_Rd), k_poll | apply (pres_mono _ _ _ Rk_Rd), k_cipher
  | apply d_cancel | apply d_abort].
Ltac xleaf := first [ assumption | apply (lf_xeng Rd); engleaf | apply pres_modify; intro; apply Rd_po ].
Ltac yleaf := first [ assumption | apply (lf_yeng Rd); engleaf | apply pres_modify; intro; apply Rd_po ].
Lemma d_client_call k : (forall now, k <> Tick now) -> pres RX (client13_call E k).
Proof.
  intros NT. destruct k as [p|cap|now|d|]; cbn [client13_call]; try (exfalso; eapply NT; reflexivity);
    unfold no_output, some_output, client13_handle_packet, client13_poll_output, client13_send, client13_close, x_make_progress;
    presauto RX_po ltac:(first [apply lf_public | apply (lf_x_progress E Rd F) | apply (lf_event _ RX_po) | xleaf]).
Qed.
Lemma d_server_call k : (forall now, k <> Tick now) -> pres RY (server13_call E k).
Proof.
  intros NT. destruct k as [p|cap|now|d|]; cbn [server13_call]; try (exfalso; eapply NT; reflexivity);
    unfold no_output, some_output, server13_handle_packet, y_process, server13_poll_output, server13_send, server13_close, y_make_progress;
    presauto RY_po ltac:(first [apply lf_public | apply (lf_y_progress E Rd F) | apply (lf_event _ RY_po) | yleaf]).
Qed.
Lemma d_call k s r s' : (forall now, k <> Tick now) -> end13_call E k s = (r, s') -> Rd (end13_eng s) (end13_eng s').
Proof.
  intros NT. destruct s as [c|c]; cbn [end13_call].
  - pose proof (d_client_call k NT c) as P. destruct (client13_call E k c). intros [= <- <-]. exact P.
  - pose proof (d_server_call k NT c) as P. destruct (server13_call E k c). intros [= <- <-]. exact P.
Qed.
Lemma d_tick now s r s' : end13_call E (Tick now) s = (r, s') ->
  g_cfg (end13_eng s') = g_cfg (end13_eng s) /\
  (g_connect (end13_eng s') = armed13 now (end13_eng s) \/ g_connect (end13_eng s') = Disabled) /\
  (due (armed13 now (end13_eng s)) now = true <-> r = Err (ETimeout TO_Connect)).
Proof.
  destruct s as [c|c]; cbn [end13_call end13_eng].
  - destruct (client13_call E (Tick now) c) as [r1 c1] eqn:Hk. intros [= <- <-].
    destruct (k_client_tick _ _ _ _ _ Hk) as (K1 & K2 & K3). cbn [end13_eng]. auto.
  - destruct (server13_call E (Tick now) c) as [r1 c1] eqn:Hk. intros [= <- <-]. cbn [end13_eng].
    cbn [server13_call] in Hk. unfold no_output in Hk. unfold bind at 1 in Hk. rewrite tick_draws in Hk. unfold bind at 1 in Hk.
    destruct (draw_eng13s E now c) as [o Ho]. unfold yeng, zoom in Hk. rewrite Ho in Hk.
    destruct (eng13_handle_timeout E now (set_g_orc o (xs_eng c))) as [rt e] eqn:Ht.
    destruct (timeout_connect _ _ _ _ _ Ht) as (K1 & K2 & K3).
    change (g_cfg (set_g_orc o (xs_eng c))) with (g_cfg (xs_eng c)) in *.
    change (armed13 now (set_g_orc o (xs_eng c))) with (armed13 now (xs_eng c)) in *.
    destruct rt as [[]|x|n].
    + unfold public, y_make_progress in Hk. set (y := set_xs_eng e (draw_random13s E (set_xs_now now c))) in *.
      pose proof (lf_y_progress E Rd F 40 y) as [P1 P2]. pose proof (nt_y_prog E 40 y TO_Connect) as P3.
      change (xs_eng y) with e in P1, P2.
      assert (Q : forall c2, g_cfg (xs_eng c2) = g_cfg e -> g_connect (xs_eng c2) = g_connect e \/ g_connect (xs_eng c2) = Disabled ->
        g_cfg (xs_eng c2) = g_cfg (xs_eng c) /\ (g_connect (xs_eng c2) = armed13 now (xs_eng c) \/ g_connect (xs_eng c2) = Disabled)).
      { intros c2 X1 X2. split; [congruence|]. rewrite <- K2. exact X2. }
      destruct (y_progress E 40 y) as [[[]|x|n] c2]; cbn [fst snd] in *; [| destruct x |];
        injection Hk as <- <-; destruct (Q _ P1 P2) as [Q1 Q2]; (split; [exact Q1|]; split; [exact Q2|]; split; [intros K; apply K3 in K; discriminate|]); try discriminate.
      intros [= ->]. destruct P3. reflexivity.
    + injection Hk as <- <-. cbn [xs_eng set_xs_eng]. split; [exact K1|]. split; [auto|]. rewrite K3. split; intros [= ->]; reflexivity.
    + injection Hk as <- <-. cbn [xs_eng set_xs_eng]. split; [exact K1|]. split; [auto|]. rewrite K3. split; discriminate.
Qed.
End OtherCalls.
Lemma deadline_only13 E s0 h s : history13 E s0 h s ->
  g_cfg (end13_eng s) = g_cfg (end13_eng s0) /\
  (g_connect (end13_eng s) = deadline13 (end13_eng s0) h \/ g_connect (end13_eng s) = Disabled).
Proof.
  induction 1 as [|h s k r s' H IH NP C].
  { split; [reflexivity|]. left. unfold deadline13. cbn. destruct (g_connect _); reflexivity. }
  destruct IH as [I1 I2].
  destruct k as [p|cap|now|d|].
  all: try (match type of C with end13_call _ ?k _ = _ => assert (P0 : forall now, k <> Tick now) by discriminate end;
    destruct (d_call E _ _ _ _ P0 C) as [P1 P2]; split; [congruence|];
    match goal with |- context [deadline13 ?e (?l ++ ?x)] => assert (Q : deadline13 e (l ++ x) = deadline13 e l)
      by (unfold deadline13; rewrite first_tick_app; cbn; destruct (first_tick h); reflexivity) end;
    rewrite Q; destruct P2 as [-> | ->]; [exact I2|right; reflexivity]).
  destruct (d_tick E _ _ _ _ C) as (K1 & K2 & _). split; [congruence|].
  destruct K2 as [-> | ->]; [|right; reflexivity].
  unfold armed13. rewrite I1. destruct I2 as [-> | ->]; [|right; reflexivity]. left.
  unfold deadline13. rewrite first_tick_app. cbn. destruct (g_connect (end13_eng s0)); try reflexivity. destruct (first_tick h); reflexivity.
Qed.

(** *** A connected server *)

Definition RG (a b : Server13) : Prop :=
  (g_connect (xs_eng b) = g_connect (xs_eng a) \/ g_connect (xs_eng b) = Disabled) /\
  (In LE_Connected (xs_events b) -> In LE_Connected (xs_events a) \/ g_connect (xs_eng b) = Disabled).
Lemma RG_po : preorder RG.
Proof.
  split; unfold RG; [intuition|]. intros a b c (A1 & A2) (B1 & B2). split; [intuition congruence|].
  intros H. destruct (B2 H) as [K|K]; [|auto]. destruct (A2 K) as [L|L]; [auto|right]. destruct B1 as [B1|B1]; congruence.
Qed.
Lemma rg_eng {A} (m : M Eng13 A) : pres Rd m -> pres RG (yeng m).
Proof. apply pres_zoom. intros s t [H1 H2]. split; [exact H2|left; assumption]. Qed.
Lemma rg_stop {A} (m : M Server13 A) : pres RG m ->
  pres RG (yeng stop_timers13 ;;; modify (fun s => set_xs_events (xs_events s ++ [LE_Connected]) s) ;;; m).
Proof.
  intros P s. unfold bind, yeng, zoom, stop_timers13, modify.
  match goal with |- RG s (snd (m ?x)) => specialize (P x); assert (K : RG s x) end.
  { split; right; reflexivity. }
  exact (po_trans _ RG_po _ _ _ K P).
Qed.
Lemma keying_events E p e : match keying13 E p e with (Ok k, _) => ~ In LE_Connected k | _ => True end.
Proof.
  destruct p as [p|]; cbn [keying13]; [|exact (fun H => H)].
  destruct (extract_srtp13 E p e) as [[km|x|n] e']; [intros [H|[]]; discriminate|intros []|exact Logic.I].
Qed.
Lemma rg_keying {A} E p (m : M Server13 A) : pres RG m ->
  pres RG (let! k := yeng (keying13 E p) in modify (fun s => set_xs_events (xs_events s ++ k) s) ;;; m).
Proof.
  intros P s. unfold bind, yeng, zoom, modify. pose proof (keying_events E p (xs_eng s)) as K.
  pose proof (op_keying E Rd Rd_po p (xs_eng s)) as [K1 K2]. destruct (keying13 E p (xs_eng s)) as [[k|x|n] e]; cbn [snd] in *.
  - match goal with |- RG s (snd (m ?x)) => specialize (P x); assert (L : RG s x) end.
    { split; [exact K2|]. intros H. apply in_app_or in H. destruct H as [H|H]; [left; exact H|destruct (K H)]. }
    exact (po_trans _ RG_po _ _ _ L P).
  - split; [exact K2|left; assumption].
  - split; [exact K2|left; assumption].
Qed.
Section ConnectedServer.
Variable E : Env.
Let F : step_frame13 E Rd := d_step E.
Ltac engleaf :=
  first [ apply unPres, (xf_flight_begin _ _ F) | apply unPres, (xf_create_handshake _ _ F) | apply unPres, (xf_next _ _ F)
        | apply unPres, (xf_replace _ _ F) | apply unPres, (xf_advance _ _ F) | apply unPres, (xf_reset _ _ F)
        | apply unPres, (xf_install_hs _ _ F) | apply unPres, (xf_install_app _ _ F) | apply unPres, (xf_enable _ _ F)
        | apply unPres, (xf_release _ _ F) | apply unPres, (xf_release_ret _ _ F) | apply unPres, (xf_needs _ _ F)
        | apply unPres, (xf_key_update _ _ F) | apply unPres, (xf_cipher _ _ F); discriminate | apply unPres, (xf_update_recv _ _ F)
        | apply unPres, (xf_send_ack _ _ F) | apply unPres, (xf_send_ack_ret _ _ F) | apply unPres, (xf_stop _ _ F)
        | apply (lf_draw13 E Rd F) | apply (lf_rand13 E Rd F) | apply (lf_create_sh13 E Rd F)
        | apply (op_derive_hs E _ Rd_po) | apply (op_derive_app E _ Rd_po), (xf_exp _ _ F)
        | apply (op_verify_data E _ Rd_po) | apply (op_transcript_hash E _ Rd_po) | apply (op_keying E _ Rd_po)
        | apply (fr_create_ch13 E _ Rd_po) | apply (fr_create_cert13 _ Rd_po)
        | apply (fr_create_cv13 E _ Rd_po), (xf_orc _ _ F) | apply (fr_check_cv13 E _ Rd_po)
        | apply pres_modify; intro; apply (xf_suite _ _ F)
        | apply pres_modify; intro; apply (xf_cut_transcript _ _ F) ].
Ltac yleaf :=
  first [ assumption
        | apply rg_eng; solve [presauto Rd_po engleaf]
        | apply pres_modify; intro s; split; [left; reflexivity|left; assumption]
        | apply pres_modify; intro s; split; [left; reflexivity|intros K; apply in_app_or in K; destruct K as [K|[K|[]]]; [left; exact K|discriminate]] ].
Lemma rg_y_step st : pres RG (y_step E st).
Proof.
  destruct st; cbn [y_step]; unfold y_await_client_hello, y_select, y_accept_hello, y_retry, send_hello_retry, cookie13,
      y_send_server_hello, y_send_encrypted_extensions, y_send_certificate_request, y_send_certificate, y_send_certificate_verify, y_send_finished,
      y_await_certificate, y_await_certificate_verify, y_await_finished, y_await_application_data,
      y_half_closed_local, next_client_hello_auto, next_handshake13, next_handshake13_no_transcript.
  all: repeat first [ lazymatch goal with
    | |- pres _ (bind (yeng stop_timers13) (fun _ => bind (modify _) _)) => apply rg_stop
    | |- pres _ (bind (yeng (keying13 _ _)) _) => apply rg_keying end | presstep RG_po yleaf ].
Qed.
End ConnectedServer.

Definition KS (os : list Output) (c : Server13) : Prop := connected_s os c -> g_connect (xs_eng c) = Disabled.
Lemma ks_rg os a b : RG a b -> KS os a -> KS os b.
Proof.
  intros [R1 R2] K [H|H].
  - destruct R1 as [R1|R1]; [|exact R1]. rewrite R1. apply K. left. exact H.
  - destruct (R2 H) as [L|L]; [|exact L]. destruct R1 as [R1|R1]; [|exact R1]. rewrite R1. apply K. right. exact L.
Qed.
Lemma ks_yeng {A} (m : M Eng13 A) os c : pres Rd m -> KS os c -> KS os (snd (yeng m c)).
Proof. intros P. apply ks_rg, (rg_eng m P c). Qed.
Lemma poll_not_connected cap now e : match fst (eng13_poll_output cap now e) with Ok OConnected => False | _ => True end.
Proof.
  unfold eng13_poll_output, poll_app_data13, poll_packet_tx13, bind, modify, get, ret, panic. cbv beta iota.
  repeat first [exact Logic.I | match goal with |- context [match ?x with _ => _ end] =>
    lazymatch x with context [match _ with _ => _ end] => fail | _ => destruct x end end; cbn [fst] ].
Qed.
Lemma ks_history E c0 h s : KS [] c0 -> history13 E (XS c0) h s -> exists c, s = XS c /\ KS (outputs h) c.
Proof.
  intros H0. apply (bo_history E KS); [..|exact H0].
  - intros p os c H. apply ks_yeng; [|exact H]. apply (pres_mono _ _ _ Rk_Rd), k_parse.
  - intros now os c H. unfold KS, connected_s in *. destruct c. unfold draw_random13s. cbn in *. destruct xs_random; exact H.
  - intros now os c H. unfold yeng, zoom. destruct (eng13_handle_timeout E now (xs_eng c)) as [r e] eqn:Ht.
    destruct (timeout_connect _ _ _ _ _ Ht) as (_ & K2 & _). intros K. specialize (H K). cbn. rewrite K2. unfold armed13. rewrite H. reflexivity.
  - intros v os c H. exact H.
  - intros v os c H. exact H.
  - intros os c r c' H Hs. pose proof (rg_y_step E (xs_state c) c) as P. rewrite Hs in P. cbn [snd] in P.
    pose proof (ks_rg os _ _ P H) as K. destruct r; exact K.
  - intros cap os c r c' H Hp. unfold server13_poll_output, bind, get in Hp. cbv beta iota in Hp.
    destruct (xs_events c) as [|ev l] eqn:He.
    + unfold yeng, zoom in Hp. pose proof (k_poll cap (xs_now c) (xs_eng c)) as [_ K].
      pose proof (poll_not_connected cap (xs_now c) (xs_eng c)) as N.
      destruct (eng13_poll_output cap (xs_now c) (xs_eng c)) as [ro e]. cbn [fst snd] in *. injection Hp as <- <-.
      intros [X|X]; cbn; rewrite K; apply H; [left|right; exact X].
      apply in_app_or in X. destruct X as [X|X]; [exact X|]. destruct ro as [o|x|n]; cbn [out_of] in X; [|destruct X..].
      destruct X as [-> |[]]. destruct N.
    + unfold modify in Hp.
      assert (S0 : c' = set_xs_events l c /\ (In OConnected (out_of r) -> ev = LE_Connected)).
      { revert Hp. destruct ev; cbn [event12_output]; unfold bind, ret, panic, get; repeat match goal with |- context [match ?x with _ => _ end] => destruct x end;
          intros [= <- <-]; split; auto; cbn; intros [X|[]] || intros []; discriminate. }
      destruct S0 as [-> S0]. intros X. cbn. apply H. destruct X as [X|X].
      * apply in_app_or in X. destruct X as [X|X]; [left; exact X|]. right. rewrite He. left. apply S0, X.
      * right. rewrite He. right. exact X.
  - intros d os c H. unfold server13_send, bind, get. cbv beta iota.
    destruct (xs_state c); try exact H. apply ks_yeng; [|exact H]. apply (pres_mono _ _ _ Rk_Rd), k_cipher.
  - intros os c H. assert (P : pres RG (server13_close E)).
    { unfold server13_close. presauto RG_po ltac:(first [apply rg_eng; first [apply (pres_mono _ _ _ Rk_Rd), k_cipher | apply d_cancel | apply d_abort]
        | apply pres_modify; intro x; split; [left; reflexivity|left; assumption] ]). }
    exact (ks_rg os _ _ (P c) H).
Qed.
