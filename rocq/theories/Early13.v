(** Proofs that application data is not released before the endpoint is connected, and
    that the close_notify is marked as reported only by the poll that reports it. *)
From Verif Require Import Prelude PreludeFacts Types Codec Codec12 Codec13 Record12 Record13 Monad MonadFacts Timer Env Config Prf Engine12 Client12
  Engine13 Client13 Server13 Context12 History12 History12Facts History13 Frame13 Lift13 Index13 Send13Proofs Trace13 Trace13Proofs Out13 Fin13 Evidence13 HsEng13 ClientInv13 ClientStep13 ServerStep13 Poll13Proofs Est13 Lift12 Rx12Ledger Recv13.

(** The engine operations, by way of Frame13.v. *)
Ltac rle PO := fr13 ltac:(first [exact PO | assumption | intros; reflexivity | intros ep sq s; unfold replay_update13; destruct (_ =? 2); reflexivity]).
Ltac rle1 E PO :=
  first [ solve [rle PO]
        | apply (op_derive_hs E _ PO) | apply (op_derive_app E _ PO); solve [intros; reflexivity]
        | apply (op_verify_data E _ PO) | apply (op_transcript_hash E _ PO) | apply (op_keying E _ PO)
        | apply (fr_create_ch13 E _ PO) | apply (fr_create_cert13 _ PO)
        | apply (fr_create_cv13 E _ PO); solve [intros; reflexivity] | apply (fr_check_cv13 E _ PO)
        | apply pres_modify; intros ?; reflexivity ].

(** ** The release of application data *)

Definition rl (a b : Eng13) : Prop := g_release b = g_release a.
Lemma rl_po : preorder rl.
Proof. split; unfold rl; intros; congruence. Qed.
Lemma rl_hs E mt mk : pres rl mk -> pres rl (create_handshake13 E mt mk).
Proof. intros H. pose proof rl_po as PO. rle PO. Qed.
Lemma rl_gen a b w : pres rl (next_handshake13_gen a b w).
Proof. pose proof rl_po as PO. rle PO. Qed.
Lemma rl_sh a b c d e : pres rl (create_server_hello13 a b c d e).
Proof. unfold create_server_hello13. pose proof rl_po as PO. presauto PO idtac. Qed.

(** Connected stays among the events waiting, and data is released only together with
    Connected. *)
Definition ev (a b : list LocalEvent12) : Prop := In LE_Connected a -> In LE_Connected b.
Definition rlx (a b : Client13) : Prop := ev (xc_events a) (xc_events b) /\
  (g_release (xc_eng b) = true -> g_release (xc_eng a) = true \/ In LE_Connected (xc_events b)).
Definition rly (a b : Server13) : Prop := ev (xs_events a) (xs_events b) /\
  (g_release (xs_eng b) = true -> g_release (xs_eng a) = true \/ In LE_Connected (xs_events b)).
Definition evx (a b : Client13) : Prop := ev (xc_events a) (xc_events b).
Definition evy (a b : Server13) : Prop := ev (xs_events a) (xs_events b).
Lemma rlx_po : preorder rlx.
Proof. split; unfold rlx, ev; [auto|]. intros a b c (A1 & A2) (B1 & B2). split; [auto|]. intros H. destruct (B2 H) as [K|K]; [|auto]. destruct (A2 K); auto. Qed.
Lemma rly_po : preorder rly.
Proof. split; unfold rly, ev; [auto|]. intros a b c (A1 & A2) (B1 & B2). split; [auto|]. intros H. destruct (B2 H) as [K|K]; [|auto]. destruct (A2 K); auto. Qed.
Lemma evx_po : preorder evx.
Proof. split; unfold evx, ev; auto. Qed.
Lemma evy_po : preorder evy.
Proof. split; unfold evy, ev; auto. Qed.
Lemma rlx_eng {A} (m : M Eng13 A) : pres rl m -> pres rlx (xeng m).
Proof. apply pres_zoom. intros s e H. split; [intro K; exact K|]. unfold rl in H. cbn. intros K. left. congruence. Qed.
Lemma rly_eng {A} (m : M Eng13 A) : pres rl m -> pres rly (yeng m).
Proof. apply pres_zoom. intros s e H. split; [intro K; exact K|]. unfold rl in H. cbn. intros K. left. congruence. Qed.
Lemma evx_eng {A} (m : M Eng13 A) : pres evx (xeng m).
Proof. intros s. unfold xeng, zoom, evx. destruct (m (xc_eng s)). intro K; exact K. Qed.
Lemma evy_eng {A} (m : M Eng13 A) : pres evy (yeng m).
Proof. intros s. unfold yeng, zoom, evy. destruct (m (xs_eng s)). intro K; exact K. Qed.
Lemma rlx_connected {A} (k : M Client13 A) : pres evx k -> pres rlx (modify (fun c => set_xc_events (xc_events c ++ [LE_Connected]) c) ;;; k).
Proof.
  intros H s. unfold bind, modify. specialize (H (set_xc_events (xc_events s ++ [LE_Connected]) s)). unfold evx, ev in H. cbn [xc_events set_xc_events] in H.
  split; [intros _|intros _; right]; apply H, in_or_app; right; left; reflexivity.
Qed.
Lemma rly_connected {A} (k : M Server13 A) : pres evy k -> pres rly (modify (fun c => set_xs_events (xs_events c ++ [LE_Connected]) c) ;;; k).
Proof.
  intros H s. unfold bind, modify. specialize (H (set_xs_events (xs_events s ++ [LE_Connected]) s)). unfold evy, ev in H. cbn [xs_events set_xs_events] in H.
  split; [intros _|intros _; right]; apply H, in_or_app; right; left; reflexivity.
Qed.

Ltac rleng E PO := first [apply rl_hs | apply rl_gen | apply rl_sh | rle1 E PO].
Ltac rlmod := apply pres_modify; let s := fresh in intros s; unfold rlx, rly, evx, evy, ev; cbn;
  first [split; [let H := fresh in intros H; first [exact H | apply in_or_app; left; exact H]|intros; left; assumption]
        | let H := fresh in intros H; first [exact H | apply in_or_app; left; exact H]].
Ltac rlxl E PO := first [ assumption | apply evx_eng | apply rlx_eng; solve [presauto PO ltac:(rleng E PO)] | rlmod ].
Ltac rlyl E PO := first [ assumption | apply evy_eng | apply rly_eng; solve [presauto PO ltac:(rleng E PO)] | rlmod ].
Lemma rlx_step E st : pres rlx (x_step E st).
Proof.
  pose proof rlx_po as PX. pose proof evx_po as PE. pose proof rl_po as PO.
  assert (P1 : forall es, pres rlx (hrr_extensions es)).
  { induction es as [|[t d] es IH]; cbn [hrr_extensions]; presauto PX ltac:(rlxl E PO). }
  assert (P2 : forall es, pres rlx (ee13_extensions es)).
  { induction es as [|[t d] es IH]; cbn [ee13_extensions]; presauto PX ltac:(rlxl E PO). }
  destruct st; cbn [x_step];
    unfold x_send_client_hello, x_await_server_hello, x_hello_retry, x_server_hello,
      x_await_encrypted_extensions, x_await_certificate_request, x_await_certificate,
      x_await_certificate_verify, x_await_finished, x_send_certificate, x_send_certificate_verify,
      x_send_finished, x_await_application_data, x_half_closed_local, next_handshake13, next_handshake13_no_transcript;
    repeat first [apply rlx_connected; solve [presauto PE ltac:(rlxl E PO)] | presstep PX ltac:(first [apply P1 | apply P2 | rlxl E PO])].
Qed.
Lemma rly_step E st : pres rly (y_step E st).
Proof.
  pose proof rly_po as PX. pose proof evy_po as PE. pose proof rl_po as PO.
  assert (P1 : forall a b c, pres rly (y_retry E a b c)) by (intros; unfold y_retry, send_hello_retry; presauto PX ltac:(rlyl E PO)).
  assert (P2 : forall a b c d, pres rly (y_accept_hello E a b c d)) by (intros; unfold y_accept_hello; presauto PX ltac:(rlyl E PO)).
  assert (P3 : forall a b c, pres rly (y_select E a b c)) by (intros; unfold y_select, cookie13; presauto PX ltac:(first [apply P1 | apply P2 | rlyl E PO])).
  destruct st; cbn [y_step];
    unfold y_await_client_hello, y_send_server_hello, y_send_encrypted_extensions,
      y_send_certificate_request, y_send_certificate, y_send_certificate_verify, y_send_finished,
      y_await_certificate, y_await_certificate_verify, y_await_finished, y_await_application_data,
      y_half_closed_local, next_client_hello_auto, next_handshake13, next_handshake13_no_transcript;
    repeat first [apply rly_connected; solve [presauto PE ltac:(rlyl E PO)] | presstep PX ltac:(first [apply P3 | rlyl E PO])].
Qed.

Lemma rlx_progress E n : pres rlx (x_progress E n).
Proof.
  pose proof rlx_po as PX. pose proof rl_po as PO. induction n as [|n IH]; cbn [x_progress]; presauto PX ltac:(first [apply rlx_step | rlxl E PO]).
Qed.
Lemma rly_progress E n : pres rly (y_progress E n).
Proof.
  pose proof rly_po as PX. pose proof rl_po as PO. induction n as [|n IH]; cbn [y_progress]; presauto PX ltac:(first [apply rly_step | rlyl E PO]).
Qed.
Lemma rlx_call E k : match k with Poll _ => False | _ => True end -> pres rlx (client13_call E k).
Proof.
  pose proof rlx_po as PX. pose proof rl_po as PO. intros H. destruct k; try contradiction; clear H; cbn [client13_call]; unfold no_output, client13_handle_packet,
    client13_handle_timeout, client13_send, client13_close, x_make_progress; presauto PX ltac:(first [apply lf_public | apply rlx_progress | rlxl E PO]).
Qed.
Lemma rly_call E k : match k with Poll _ => False | _ => True end -> pres rly (server13_call E k).
Proof.
  pose proof rly_po as PX. pose proof rl_po as PO. intros H. destruct k; try contradiction; clear H; cbn [server13_call]; unfold no_output, server13_handle_packet, y_process,
    server13_handle_timeout, server13_send, server13_close, y_make_progress; presauto PX ltac:(first [apply lf_public | apply rly_progress | rlyl E PO]).
Qed.

(** ** The report of the close_notify *)

Definition rp (a b : Eng13) : Prop := g_cn_rep b = g_cn_rep a.
Lemma rp_po : preorder rp.
Proof. split; unfold rp; intros; congruence. Qed.
Lemma rp_hs E mt mk : pres rp mk -> pres rp (create_handshake13 E mt mk).
Proof. intros H. pose proof rp_po as PO. rle PO. Qed.
Lemma rp_gen a b w : pres rp (next_handshake13_gen a b w).
Proof. pose proof rp_po as PO. rle PO. Qed.
Lemma rp_sh a b c d e : pres rp (create_server_hello13 a b c d e).
Proof. unfold create_server_hello13. pose proof rp_po as PO. presauto PO idtac. Qed.
Definition rpx (a b : Client13) : Prop := rp (xc_eng a) (xc_eng b).
Definition rpy (a b : Server13) : Prop := rp (xs_eng a) (xs_eng b).
Lemma rpx_po : preorder rpx.
Proof. split; unfold rpx, rp; intros; congruence. Qed.
Lemma rpy_po : preorder rpy.
Proof. split; unfold rpy, rp; intros; congruence. Qed.
Ltac rpeng E PO := first [apply rp_hs | apply rp_gen | apply rp_sh | rle1 E PO].
Ltac rpxl E PO := first [ assumption | apply (lf_xeng rp); solve [presauto PO ltac:(rpeng E PO)] | apply pres_modify; intro; reflexivity ].
Ltac rpyl E PO := first [ assumption | apply (lf_yeng rp); solve [presauto PO ltac:(rpeng E PO)] | apply pres_modify; intro; reflexivity ].
Lemma rpx_progress E n : pres rpx (x_progress E n).
Proof.
  pose proof rpx_po as PX. pose proof rp_po as PO.
  assert (P1 : forall es, pres rpx (hrr_extensions es)).
  { induction es as [|[t d] es IH]; cbn [hrr_extensions]; presauto PX ltac:(rpxl E PO). }
  assert (P2 : forall es, pres rpx (ee13_extensions es)).
  { induction es as [|[t d] es IH]; cbn [ee13_extensions]; presauto PX ltac:(rpxl E PO). }
  assert (P : forall st, pres rpx (x_step E st)).
  { destruct st; cbn [x_step];
    unfold x_send_client_hello, x_await_server_hello, x_hello_retry, x_server_hello,
      x_await_encrypted_extensions, x_await_certificate_request, x_await_certificate,
      x_await_certificate_verify, x_await_finished, x_send_certificate, x_send_certificate_verify,
      x_send_finished, x_await_application_data, x_half_closed_local, next_handshake13, next_handshake13_no_transcript;
    presauto PX ltac:(first [apply P1 | apply P2 | rpxl E PO]). }
  induction n as [|n IH]; cbn [x_progress]; presauto PX ltac:(first [apply P | rpxl E PO]).
Qed.
Lemma rpy_progress E n : pres rpy (y_progress E n).
Proof.
  pose proof rpy_po as PX. pose proof rp_po as PO.
  assert (P1 : forall a b c, pres rpy (y_retry E a b c)) by (intros; unfold y_retry, send_hello_retry; presauto PX ltac:(rpyl E PO)).
  assert (P2 : forall a b c d, pres rpy (y_accept_hello E a b c d)) by (intros; unfold y_accept_hello; presauto PX ltac:(rpyl E PO)).
  assert (P3 : forall a b c, pres rpy (y_select E a b c)) by (intros; unfold y_select, cookie13; presauto PX ltac:(first [apply P1 | apply P2 | rpyl E PO])).
  assert (P : forall st, pres rpy (y_step E st)).
  { destruct st; cbn [y_step];
    unfold y_await_client_hello, y_send_server_hello, y_send_encrypted_extensions,
      y_send_certificate_request, y_send_certificate, y_send_certificate_verify, y_send_finished,
      y_await_certificate, y_await_certificate_verify, y_await_finished, y_await_application_data,
      y_half_closed_local, next_client_hello_auto, next_handshake13, next_handshake13_no_transcript;
    presauto PX ltac:(first [apply P3 | rpyl E PO]). }
  induction n as [|n IH]; cbn [y_progress]; presauto PX ltac:(first [apply P | rpyl E PO]).
Qed.
Lemma rp_call E k s r s' : match k with Poll _ => False | _ => True end -> end13_call E k s = (r, s') -> rp (end13_eng s) (end13_eng s').
Proof.
  pose proof rpx_po as PX. pose proof rpy_po as PY. pose proof rp_po as PO. intros H.
  assert (P1 : pres rpx (client13_call E k)).
  { destruct k; try contradiction; clear H; cbn [client13_call]; unfold no_output, client13_handle_packet,
    client13_handle_timeout, client13_send, client13_close, x_make_progress; presauto PX ltac:(first [apply lf_public | apply rpx_progress | rpxl E PO]). }
  assert (P2 : pres rpy (server13_call E k)).
  { destruct k; try contradiction; clear H; cbn [server13_call]; unfold no_output, server13_handle_packet, y_process,
    server13_handle_timeout, server13_send, server13_close, y_make_progress; presauto PY ltac:(first [apply lf_public | apply rpy_progress | rpyl E PO]). }
  destruct s as [c|c]; cbn [end13_call end13_eng]; intros Hc.
  - specialize (P1 c). destruct (client13_call E k c) as [r1 c1]. injection Hc as <- <-. exact P1.
  - specialize (P2 c). destruct (server13_call E k c) as [r1 c1]. injection Hc as <- <-. exact P2.
Qed.

(** ** Histories *)

Lemma outputs_snoc h k r : outputs (h ++ [(k, r)]) = outputs h ++ output_in r.
Proof. unfold outputs. rewrite flat_map_app. cbn [flat_map snd]. rewrite app_nil_r. reflexivity. Qed.
Lemma event_popped E cap s r s' v l : end13_events s = v :: l -> end13_call E (Poll cap) s = (r, s') ->
  end13_events s' = l /\ end13_eng s' = end13_eng s /\ (v = LE_Connected -> output_in r = [OConnected]) /\
  (forall o, In o (output_in r) -> match o with OAppData _ | OCloseNotify => False | _ => True end).
Proof.
  intros He H. rewrite poll13_unfold, He in H.
  destruct v; injection H as <- <-.
  2, 3: destruct s; (split; [reflexivity|split; [reflexivity|split; [try discriminate; reflexivity|]]]); intros o [<-|[]]; exact I.
  split; [destruct s; reflexivity|]. split; [destruct s; reflexivity|]. split; [discriminate|]. intros o.
  destruct (end13_certs s) as [|c0 t]; [intros []|]. destruct (len c0 <=? cap); [intros [<-|[]]; exact I|intros []].
Qed.
Lemma rel_start E cfg cert key s0 : start13 E cfg cert key s0 -> g_release (end13_eng s0) = true -> In LE_Connected (end13_events s0).
Proof.
  intros [s Hf|random fragment kx now c Hc] H.
  - destruct (fresh13_eng _ _ _ _ _ Hf) as [F _]. unfold fresh_eng in F. exfalso. destruct F as (? & ? & F); rewrite F in H. discriminate.
  - rewrite from_hybrid in Hc. apply tick_run in Hc.
    pose proof (rlx_call E (Tick now) I (hybrid_client E cfg cert key random fragment kx now)) as K. rewrite Hc in K. destruct (proj2 K H) as [D|D]; [discriminate D|exact D].
Qed.
Lemma rep_start E cfg cert key s0 : start13 E cfg cert key s0 -> g_cn_rep (end13_eng s0) = false.
Proof.
  intros [s Hf|random fragment kx now c Hc].
  - destruct (fresh13_eng _ _ _ _ _ Hf) as [F _]. unfold fresh_eng in F. destruct F as (? & ? & F); rewrite F. reflexivity.
  - rewrite from_hybrid in Hc. apply tick_run in Hc.
    destruct (client13_call E (Tick now) (hybrid_client E cfg cert key random fragment kx now)) as [r1 c1] eqn:H1. cbn [snd] in Hc. subst c1.
    exact (rp_call E (Tick now) (XC (hybrid_client E cfg cert key random fragment kx now)) r1 (XC c) I ltac:(cbn [end13_call]; rewrite H1; reflexivity)).
Qed.
Lemma rel_poll cap now : pres rl (eng13_poll_output cap now).
Proof. pose proof rl_po as PO. rle PO. Qed.
Theorem released_seen E cfg cert key h s : reach13 E cfg cert key h s -> g_release (end13_eng s) = true -> seen_connected13 h s.
Proof.
  intros (s0 & H0 & H). induction H as [|h s k r s' H IH NP Hc]; [intros K; right; exact (rel_start _ _ _ _ _ H0 K)|].
  unfold seen_connected13 in *. rewrite outputs_snoc. intros K.
  destruct (match k with Poll _ => true | _ => false end) eqn:Hk.
  - destruct k; try discriminate. destruct (end13_events s) as [|v l] eqn:He.
    + rewrite poll13_unfold, He in Hc. pose proof (rel_poll cap (end13_now s) (end13_eng s)) as R.
      destruct (eng13_poll_output cap (end13_now s) (end13_eng s)) as [o e]. injection Hc as _ <-. cbn [snd] in R. unfold rl in R.
      destruct IH as [IH|[]]; [destruct s; cbn in *; congruence|]. left. apply in_or_app; left; exact IH.
    + destruct (event_popped E cap s r s' v l He Hc) as (P1 & P2 & P3 & _). rewrite P1. rewrite P2 in K. destruct (IH K) as [Q|[Q|Q]].
      * left. apply in_or_app; left; exact Q.
      * left. apply in_or_app; right. rewrite (P3 Q). left; reflexivity.
      * right. exact Q.
  - assert (Hn : match k with Poll _ => False | _ => True end) by (destruct k; [exact I|discriminate|exact I..]).
    assert (Q : ev (end13_events s) (end13_events s') /\ (g_release (end13_eng s') = true -> g_release (end13_eng s) = true \/ In LE_Connected (end13_events s'))).
    { destruct s as [c|c]; cbn [end13_call] in Hc.
      - pose proof (rlx_call E k Hn c) as Q. destruct (client13_call E k c). injection Hc as <- <-. exact Q.
      - pose proof (rly_call E k Hn c) as Q. destruct (server13_call E k c). injection Hc as <- <-. exact Q. }
    destruct Q as [Q1 Q2]. destruct (Q2 K) as [Q|Q]; [|right; exact Q].
    destruct (IH Q) as [X|X]; [left; apply in_or_app; left; exact X|right; apply Q1, X].
Qed.

Lemma rep_poll cap now e o e' : eng13_poll_output cap now e = (o, e') -> g_cn_rep e = false -> g_cn_rep e' = true -> o = Ok OCloseNotify.
Proof.
  rewrite poll_from_eq. intros H Hf Ht. assert (Hf' : g_cn_rep (purged13 e) = false) by exact Hf. clear Hf. revert H Hf'. generalize (purged13 e). clear e. intros e H Hf.
  unfold poll_from in H. unfold bind at 1 in H.
  assert (PA : rp e (snd (poll_app_data13 cap e))).
  { pose proof rp_po as PO. assert (Q : pres rp (poll_app_data13 cap)); [|apply Q]. unfold poll_app_data13. presauto PO ltac:(apply pres_modify; intro; reflexivity). }
  destruct (poll_app_data13 cap e) as [[[d|]|x|x] e1]; cbn [snd] in PA; unfold rp in PA; try (injection H as _ <-; congruence).
  unfold bind at 1, modify in H. unfold bind at 1 in H.
  assert (Hm : g_cn_rep (maybe_schedule_ack now e1) = false).
  { unfold maybe_schedule_ack. repeat match goal with |- context [match ?x with _ => _ end] => destruct x end; cbn; congruence. }
  revert Hm H. generalize (maybe_schedule_ack now e1). clear PA e1. intros e1 Hm H.
  assert (PB : rp e1 (snd (poll_packet_tx13 cap e1))).
  { pose proof rp_po as PO. assert (Q : pres rp (poll_packet_tx13 cap)); [|apply Q]. unfold poll_packet_tx13. presauto PO ltac:(apply pres_modify; intro; reflexivity). }
  destruct (poll_packet_tx13 cap e1) as [[[d|]|x|x] e2]; cbn [snd] in PB; unfold rp in PB; try (injection H as _ <-; congruence).
  unfold bind at 1, get in H. destruct (_ && _); [injection H as <- _; reflexivity|injection H as _ <-; congruence].
Qed.
Theorem reported_seen E cfg cert key h s : reach13 E cfg cert key h s -> g_cn_rep (end13_eng s) = true -> In OCloseNotify (outputs h).
Proof.
  intros (s0 & H0 & H). induction H as [|h s k r s' H IH NP Hc]; [intros K; rewrite (rep_start _ _ _ _ _ H0) in K; discriminate|].
  rewrite outputs_snoc. intros K. apply in_or_app. destruct (g_cn_rep (end13_eng s)) eqn:R; [left; apply IH; reflexivity|right].
  destruct (match k with Poll _ => true | _ => false end) eqn:Hk.
  - destruct k; try discriminate. destruct (end13_events s) as [|v l] eqn:He.
    + rewrite poll13_unfold, He in Hc. destruct (eng13_poll_output cap (end13_now s) (end13_eng s)) as [o e] eqn:Hp. injection Hc as <- <-.
      rewrite (rep_poll _ _ _ _ _ Hp R); [left; reflexivity|]. destruct s; exact K.
    + destruct (event_popped E cap s r s' v l He Hc) as (_ & P2 & _). congruence.
  - assert (Hn : match k with Poll _ => False | _ => True end) by (destruct k; [exact I|discriminate|exact I..]).
    pose proof (rp_call E k s r s' Hn Hc) as Q. unfold rp in Q. congruence.
Qed.
Lemma unreleased_poll cap now e o e' : eng13_poll_output cap now e = (o, e') -> g_release e = false -> match o with Ok (OAppData _) => False | _ => True end.
Proof.
  rewrite poll_from_eq. intros H Hf. unfold poll_from in H. unfold bind at 1 in H. unfold poll_app_data13, bind at 1, get in H.
  replace (g_release (purged13 e)) with false in H by (symmetry; exact Hf). cbn [negb] in H. unfold ret at 1 in H.
  unfold bind at 1, modify in H. unfold bind at 1 in H. 
  destruct (poll_packet_tx13 cap (maybe_schedule_ack now (purged13 e))) as [r e2] eqn:Hp.
  assert (Q : match r with Ok (Some (OAppData _)) => False | _ => True end).
  { unfold poll_packet_tx13, bind, get in Hp. destruct (g_tx _) as [|p l]; [injection Hp as <- _; exact I|].
    destruct (_ <? _); [injection Hp as <- _; exact I|]. unfold modify, ret in Hp. injection Hp as <- _. exact I. }
  destruct r as [[d|]|x|x]; [injection H as <- _; destruct d; auto| |injection H as <- _; exact I..].
  unfold bind at 1, get in H. destruct (_ && _); injection H as <- _; exact I.
Qed.
