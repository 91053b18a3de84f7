(** The records a DTLS 1.3 endpoint sends for its user: application data and alerts. *)
From Coq Require Import Permutation.
From Verif Require Import Prelude PreludeFacts Types Codec Codec12 Codec13 Record12 Record13 Monad MonadFacts Timer
  Env Config Aead Prf Window SeqRecon Engine12 Queue12Proofs Client12 Engine13 Client13 Server13 Frame13 History12 History12Facts
  History13 Lift13 Trace13 Trace13Proofs Out13 Send13Proofs Nonce13.

(** The user's records. *)
Definition user (z : Sent13) : bool := (z_type z =? CT_APP) || (z_type z =? CT_ALERT).
Definition user_ct (ct : N) : Prop := ct = CT_APP \/ ct = CT_ALERT.
Definition quiet_ct (ct : N) : Prop := ct <> CT_APP /\ ct <> CT_ALERT.
Lemma user_quiet z : quiet_ct (z_type z) -> user z = false.
Proof. intros [H1 H2]. unfold user. apply N.eqb_neq in H1, H2. rewrite H1, H2. reflexivity. Qed.
Lemma user_user z : user_ct (z_type z) -> user z = true.
Proof. intros [H|H]; unfold user; rewrite H; reflexivity. Qed.

(** The records sent or waiting to be polled; [U] are the user's ones in order, all of
    them protected.  The flight kept for retransmission holds none. *)
Definition UL (E : Env) (os : list Output) (U : list Sent13) (e : Eng13) : Prop :=
  Forall (fun en => quiet_ct (en13_ctype en)) (g_saved e) /\
  exists rss, datagrams os ++ g_tx e = map enc rss /\ Forall (sent_ok E) (concat rss) /\
    filter user (concat rss) = U /\ Forall (fun z => z_key z <> None) U.

Section Ledger.
Variable E : Env.
Variable os : list Output.
Variable U : list Sent13.
Notation I := (UL E os U).
Definition RU (a b : Eng13) : Prop := I a -> I b.
Lemma RU_po : preorder RU.
Proof. apply preorder_inv. Qed.

Lemma UL_frame a b : g_tx b = g_tx a -> g_saved b = g_saved a -> I a -> I b.
Proof. unfold UL. intros -> ->. auto. Qed.
Lemma UL_saved v a : Forall (fun en => quiet_ct (en13_ctype en)) v -> I a -> I (set_g_saved v a).
Proof. intros H [_ K]. split; [exact H|exact K]. Qed.
Lemma UL_keep sv en a : (sv = true -> quiet_ct (en13_ctype en)) -> I a -> I (keep13 sv en a).
Proof.
  intros Hs [H K]. destruct sv; [|split; assumption]. split; [|exact K]. cbn [keep13 g_saved set_g_saved].
  apply Forall_app. split; [exact H|]. constructor; [exact (Hs eq_refl)|constructor].
Qed.
Lemma UL_emit (app : bool) z a b : I a -> sent_ok E z -> quiet_ct (z_type z) -> (app = true -> g_tx a <> []) ->
  g_tx b = (if app then append_last (z_wire z) (g_tx a) else g_tx a ++ [z_wire z]) -> g_saved b = g_saved a -> I b.
Proof.
  intros (H & rss & L1 & L2 & L3 & L4) Hz Hq Ha Hb Hs. split; [rewrite Hs; exact H|].
  destruct (emit_rss _ _ _ app z L1 Ha) as (rss' & R1 & R2). exists rss'. rewrite Hb, R2. split; [exact R1|].
  split; [apply Forall_app; split; [exact L2|constructor; [exact Hz|constructor]]|].
  rewrite filter_app. cbn [filter]. rewrite (user_quiet z Hq), app_nil_r. auto.
Qed.
Lemma UL_plain ct sv f : quiet_ct ct -> pres RU (create_plain13 ct sv f).
Proof.
  intros Hq s H. pose proof (create_plain_spec ct sv f s) as W. unfold wp in W.
  destruct (create_plain13 ct sv f s) as [r s']. cbv zeta in W. cbn [fst snd] in W |- *.
  destruct r as [u|x|n].
  - destruct W as (Hm & _ & _ & ->).
    apply (UL_keep sv (mkEntry13 ct 0 (g_seq0 s) f false) s (fun _ => Hq)) in H. set (s1 := keep13 _ _ _) in *.
    assert (Hs1 : g_tx s1 = g_tx s) by (subst s1; destruct sv; auto).
    apply (UL_emit (can_append13 s (13 + len f)) (mkSent13 0 (g_seq0 s) None ct f (s_plain13 ct 0 (g_seq0 s) f)) s1); auto.
    + split; [exact Hm|]. split; reflexivity.
    + rewrite Hs1. apply can_append13_nonnil.
    + unfold emit13. destruct (can_append13 s (13 + len f)); reflexivity.
    + unfold emit13. destruct (can_append13 s (13 + len f)); reflexivity.
  - destruct W as [_ ->]. apply UL_keep; auto.
  - destruct W as (_ & _ & -> & _). exact H.
Qed.
Lemma bump_same c ep s : g_tx (bump_seq c ep s) = g_tx s /\ g_saved (bump_seq c ep s) = g_saved s.
Proof.
  unfold bump_seq. destruct c; cbv zeta; repeat match goal with |- context [if ?b then _ else _] => destruct b end; auto.
Qed.
Lemma UL_cipher ct ep sv f : quiet_ct ct -> pres RU (create_cipher13 E ct ep sv f).
Proof.
  intros Hq s H. pose proof (create_cipher_spec E ct ep sv f s) as W. unfold wp in W.
  destruct (create_cipher13 E ct ep sv f s) as [r s']. cbv zeta in W. cbn [fst snd] in W |- *.
  destruct r as [u|x|n].
  - destruct W as (cs & i & k & body & rec & Hcs & Hi & Hk & Hsl & Hm & _ & _ & ->).
    set (sq := ctx_seq s (ctx13 s ep)) in *.
    apply (UL_keep sv (mkEntry13 ct ep sq f false) s (fun _ => Hq)) in H. set (s1 := keep13 _ _ _) in *.
    assert (Hs1 : g_tx s1 = g_tx s) by (subst s1; destruct sv; auto).
    destruct (bump_same (ctx13 s ep) ep s1) as [B1 B2].
    apply (UL_emit (can_append13 s (5 + len body)) (mkSent13 ep sq (Some k) ct f rec) s1); auto.
    + split; [exact Hm|]. exists cs, i, body. split; assumption.
    + rewrite Hs1. apply can_append13_nonnil.
    + unfold emit13. destruct (can_append13 s (5 + len body)); cbn [g_tx set_g_tx]; rewrite B1; reflexivity.
    + unfold emit13. destruct (can_append13 s (5 + len body)); cbn [g_saved set_g_tx]; exact B2.
  - destruct W as [_ ->]. apply UL_keep; auto.
  - destruct W as [-> | ->]; [exact H|]. apply UL_keep; auto.
Qed.
(** One record of the user's. *)
Lemma UL_user ct ep f s : user_ct ct -> I s ->
  wp (create_cipher13 E ct ep false f) (fun r s' => match r with
    | Ok _ => exists z, z_type z = ct /\ z_frag z = f /\ UL E os (U ++ [z]) s'
    | Err x => (x = ETxFull \/ x = ECrypto) /\ I s'
    | Panic _ => I s' end) s.
Proof.
  intros Hu H. pose proof (create_cipher_spec E ct ep false f s) as W. unfold wp in W |- *.
  destruct (create_cipher13 E ct ep false f s) as [r s']. cbv zeta in W. cbn [fst snd keep13] in W |- *.
  destruct r as [u|x|n].
  - destruct W as (cs & i & k & body & rec & Hcs & Hi & Hk & Hsl & Hm & _ & _ & ->).
    set (z := mkSent13 ep (ctx_seq s (ctx13 s ep)) (Some k) ct f rec). exists z. split; [reflexivity|]. split; [reflexivity|].
    destruct (bump_same (ctx13 s ep) ep s) as [B1 B2]. destruct H as (H & rss & L1 & L2 & L3 & L4).
    destruct (emit_rss _ _ _ (can_append13 s (5 + len body)) z L1 (can_append13_nonnil s _)) as (rss' & R1 & R2).
    split.
    + unfold emit13. destruct (can_append13 s (5 + len body)); cbn [g_saved set_g_tx set_g_sealed]; rewrite B2; exact H.
    + exists rss'. split; [|split; [|split]].
      * unfold emit13. destruct (can_append13 s (5 + len body)); cbn [g_tx set_g_tx set_g_sealed]; rewrite B1; exact R1.
      * rewrite R2. apply Forall_app. split; [exact L2|]. constructor; [|constructor]. split; [exact Hm|]. exists cs, i, body. split; assumption.
      * rewrite R2, filter_app, L3. cbn [filter]. rewrite (user_user z Hu). reflexivity.
      * apply Forall_app. split; [exact L4|]. constructor; [discriminate|constructor].
  - destruct W as [W ->]. auto.
  - destruct W as [-> | ->]; exact H.
Qed.

Lemma hs_quiet : quiet_ct CT_HS.
Proof. split; discriminate. Qed.
Lemma ack_quiet : quiet_ct CT_ACK.
Proof. split; discriminate. Qed.
Ltac uset := intros; unfold RU; apply UL_frame; reflexivity.
Ltac umod := apply pres_modify; uset.
Ltac usend := first [apply UL_plain | apply UL_cipher]; first [exact hs_quiet|exact ack_quiet].

Lemma UL_frag fuel mt total seq ep prot : forall off rest, pres RU (frag_loop13 E fuel mt total seq ep prot off rest).
Proof.
  induction fuel as [|fuel IH]; intros off rest; cbn [frag_loop13]; [destruct rest; presauto RU_po idtac|].
  presauto RU_po ltac:(first [usend|apply IH]).
Qed.
Lemma UL_create_hs mt mk : pres RU mk -> pres RU (create_handshake13 E mt mk).
Proof.
  intros H. unfold create_handshake13.
  presauto RU_po ltac:(first [exact H|apply (op_suite_provider E _ RU_po)|apply UL_frag|umod|usend]).
Qed.
Lemma UL_flight_begin : pres RU (flight_begin13 E).
Proof.
  unfold flight_begin13. presauto RU_po ltac:(first [apply op_draw13; [exact RU_po|uset]|idtac]).
  apply pres_modify. intros s H. apply (UL_frame (set_g_saved [] s)); try reflexivity. apply UL_saved; [constructor|exact H].
Qed.
Lemma UL_resend_loop es : forall s, Forall (fun en => quiet_ct (en13_ctype en)) es -> I s ->
  wp (resend_loop13 E es) (fun r s' => I s' /\
    match r with Ok es' => Forall (fun en => quiet_ct (en13_ctype en)) es' | _ => True end) s.
Proof.
  induction es as [|e es IH]; intros s Hes H; cbn [resend_loop13].
  - apply wp_ret. auto.
  - inversion Hes as [|? ? H1 H2]; subst. destruct (en13_acked e).
    + apply wp_bind. eapply wp_mono; [apply (IH s H2 H)|]. intros r s' (K1 & K3).
      destruct r as [es'|x|n]; [apply wp_ret; auto|auto..].
    + apply wp_bind, wp_get, wp_bind.
      eapply wp_mono with (P := fun _ s' => I s').
      { destruct (en13_epoch e =? 0); [apply UL_plain; assumption|apply UL_cipher; assumption]. }
      intros r s1 K1. destruct r as [u|x|n]; [|auto..].
      apply wp_bind. eapply wp_mono; [apply (IH s1 H2 K1)|].
      intros r s2 (Q1 & Q3). destruct r as [es'|x|n]; cbn; [|auto..].
      apply wp_ret. split; [exact Q1|]. constructor; [exact H1|exact Q3].
Qed.
Lemma UL_resend : pres RU (flight_resend13 E).
Proof.
  intros s H. unfold flight_resend13. apply (wp_bind get _ (fun _ s' => I s')), wp_get, wp_bind, wp_modify, wp_bind.
  assert (H1 : I (set_g_sealed true (set_g_saved [] s))).
  { apply (UL_frame (set_g_saved [] s)); try reflexivity. apply UL_saved; [constructor|exact H]. }
  eapply wp_mono; [apply (UL_resend_loop (g_saved s) (set_g_sealed true (set_g_saved [] s)) (proj1 H) H1)|].
  intros r s' (K1 & K3). destruct r as [es|x|n]; [|exact K1..].
  apply wp_modify. apply UL_saved; assumption.
Qed.
Lemma UL_insert_hs inc r h : pres RU (insert_handshake13 E inc r h).
Proof.
  unfold insert_handshake13, bsearch13.
  presauto RU_po ltac:(first [apply UL_resend|apply op_draw13; [exact RU_po|uset]|umod]).
Qed.
Lemma UL_flush now : pres RU (maybe_flush_ack E now).
Proof. unfold maybe_flush_ack. presauto RU_po ltac:(first [usend|umod]). Qed.
Lemma UL_timeout now : pres RU (eng13_handle_timeout E now).
Proof.
  unfold eng13_handle_timeout.
  presauto RU_po ltac:(first [apply UL_flush|apply UL_resend|apply op_draw13; [exact RU_po|uset]|umod
    |apply pres_modify; intro s; destruct (maybe_ack_set now s) as [d ->]; uset]).
Qed.
Lemma UL_cancel : pres RU cancel_flights.
Proof.
  apply pres_modify. intros s H. apply (UL_frame (set_g_saved [] s)); try reflexivity. apply UL_saved; [constructor|exact H].
Qed.
Lemma UL_process_ack d : pres RU (process_ack E d).
Proof.
  unfold process_ack, update_send_keys.
  presauto RU_po ltac:(first [apply (op_next_secret E _ RU_po)|apply (op_derive_epoch_keys E _ RU_po)|apply op_draw13; [exact RU_po|uset]|umod
    | apply pres_modify; intros s H; first
      [ apply (UL_frame (set_g_saved [] s)); try reflexivity; apply UL_saved; [constructor|exact H]
      | apply UL_saved; [|exact H]; apply Forall_map; eapply Forall_impl; [|exact (proj1 H)]; intros en K;
        unfold mark_acked; destruct (existsb _ _); exact K ] ]).
Qed.
Lemma UL_parse p : pres RU (eng13_parse_packet E p).
Proof.
  fr13o ltac:(idtac; lazymatch goal with
    | |- pres _ (insert_handshake13 _ _ _ _) => apply UL_insert_hs
    | |- pres _ (process_ack _ _) => apply UL_process_ack
    end) ltac:(first [exact RU_po|uset|idtac]).
Qed.
Lemma UL_enable : pres RU (enable_peer_encryption13 E).
Proof.
  fr13o ltac:(idtac; lazymatch goal with
    | |- pres _ (insert_handshake13 _ _ _ _) => apply UL_insert_hs
    | |- pres _ (process_ack _ _) => apply UL_process_ack
    end) ltac:(first [exact RU_po|uset|idtac]).
Qed.
Lemma UL_send_ack sv : pres RU (send_ack_inner E sv).
Proof. unfold send_ack_inner. presauto RU_po ltac:(first [usend|umod]). Qed.
Lemma UL_send_ack_retr : pres RU (send_ack_retransmittable E).
Proof.
  unfold send_ack_retransmittable. presauto RU_po ltac:(first [apply (UL_send_ack true)|idtac]).
  apply pres_modify. intros s H. apply UL_saved; [constructor|exact H].
Qed.
Lemma UL_key_update b : pres RU (create_key_update E b).
Proof. unfold create_key_update. presauto RU_po ltac:(first [apply UL_flight_begin|usend|umod]). Qed.
Lemma UL_install_app a b : pres RU (install_application_keys E a b).
Proof.
  unfold install_application_keys.
  presauto RU_po ltac:(first [apply (op_derive_epoch_keys E _ RU_po)|apply op_push_recv; [exact RU_po|uset]|umod]).
Qed.
Lemma UL_install_hs a b : pres RU (install_handshake_keys E a b).
Proof.
  unfold install_handshake_keys.
  presauto RU_po ltac:(first [apply (op_derive_epoch_keys E _ RU_po)|umod]).
Qed.
End Ledger.

(** Giving up before anything of the user's was sent. *)
Lemma UL_abort E os : pres (RU E os []) eng13_abort.
Proof.
  apply pres_modify. intros s (H & rss & L1 & L2 & L3 & L4). split; [constructor|].
  exists (firstn (length (datagrams os)) rss).
  assert (Hsplit : rss = firstn (length (datagrams os)) rss ++ skipn (length (datagrams os)) rss) by (symmetry; apply firstn_skipn).
  set (n := length (datagrams os)) in *.
  assert (Hw : datagrams os = map enc (firstn n rss)).
  { rewrite <- firstn_map, <- L1. rewrite firstn_app. subst n. rewrite Nat.sub_diag, firstn_all. cbn. rewrite app_nil_r. reflexivity. }
  set (r1 := firstn n rss) in *. set (r2 := skipn n rss) in *. clearbody r1 r2. subst rss.
  rewrite concat_app in *. rewrite filter_app in L3. apply Forall_app in L2. apply app_eq_nil in L3.
  cbn [g_tx set_g_ackdl set_g_connect set_g_flight set_g_saved set_g_tx]. rewrite app_nil_r. split; [exact Hw|]. split; [apply L2|]. split; [apply L3|constructor].
Qed.
Lemma UL_poll E U cap now os e r e' : UL E os U e -> eng13_poll_output cap now e = (r, e') -> UL E (os ++ out_of r) U e'.
Proof.
  intros (H & rss & L1 & L2) Hp. pose proof (poll_shape cap now e) as W. unfold wp in W. rewrite Hp in W. cbn [fst snd] in W.
  destruct W as (l & v & d & b & -> & W). split; [exact H|]. exists rss. split; [|exact L2].
  rewrite datagrams_app. change (g_tx (polled13 e l v d b)) with l. rewrite <- L1, <- app_assoc. f_equal.
  destruct r as [o|x|n]; cbn [out_of datagrams flat_map app]; [|exact W..].
  destruct o; cbn [app]; first [exact W|symmetry; exact W].
Qed.
Lemma UL_quiet E U os os' e : datagrams os' = [] -> UL E os U e -> UL E (os ++ os') U e.
Proof. intros Hd (H & rss & L1 & L2). split; [exact H|]. exists rss. rewrite datagrams_app, Hd, app_nil_r. auto. Qed.

Ltac uset := intros; unfold RU; apply UL_frame; reflexivity.
Ltac uover := idtac; lazymatch goal with
  | |- pres _ (insert_handshake13 _ _ _ _) => apply UL_insert_hs
  | |- pres _ (process_ack _ _) => apply UL_process_ack
  | |- pres _ (create_plain13 _ _ _) => apply UL_plain; split; discriminate
  | |- pres _ (create_cipher13 _ _ _ _ _) => apply UL_cipher; split; discriminate
  | |- pres _ (flight_begin13 _) => apply UL_flight_begin
  | |- pres _ (flight_resend13 _) => apply UL_resend
  | |- pres _ (eng13_parse_packet _ _) => apply UL_parse
  | |- pres _ (enable_peer_encryption13 _) => apply UL_enable
  | |- pres _ (eng13_handle_timeout _ _) => apply UL_timeout
  | |- pres _ cancel_flights => apply UL_cancel
  | |- pres _ (send_ack13 _) => apply UL_send_ack
  | |- pres _ (send_ack_retransmittable _) => apply UL_send_ack_retr
  | |- pres _ (create_key_update _ _) => apply UL_key_update
  | |- pres _ (install_application_keys _ _ _) => apply UL_install_app
  | |- pres _ (install_handshake_keys _ _ _) => apply UL_install_hs
  | |- pres _ reset_for_hello_retry => apply pres_modify; uset
  | |- pres _ (derive_handshake_secrets _ _) => apply op_derive_hs, RU_po
  | |- pres _ (derive_application_secrets _ _) => apply op_derive_app; [apply RU_po|uset]
  | |- pres _ (compute_verify_data _ _) => apply op_verify_data, RU_po
  | |- pres _ (transcript_hash13 _) => apply op_transcript_hash, RU_po
  | |- pres _ (keying13 _ _) => apply op_keying, RU_po
  | |- pres _ (create_client_hello13 _ _ _ _ _) => apply fr_create_ch13, RU_po
  | |- pres _ (create_certificate13 _) => apply fr_create_cert13, RU_po
  | |- pres _ (create_certificate_verify13 _ _) => apply fr_create_cv13; [apply RU_po|uset]
  | |- pres _ (check_certificate_verify _ _ _ _ _ _) => apply fr_check_cv13, RU_po
  | |- pres _ (ret _) => apply pres_ret, RU_po
  | |- pres _ (next_handshake13 _) => apply op_next_hs; first [apply RU_po|uset]
  | |- pres _ (next_handshake13_no_transcript _) => apply op_next_hs; first [apply RU_po|uset]
  | |- pres _ next_client_hello_auto => apply op_next_hs; first [apply RU_po|uset]
  end.
Ltac uop := first
  [ solve [uover]
  | lazymatch goal with |- pres _ (create_handshake13 _ _ _) => apply UL_create_hs; uop end
  | lazymatch goal with |- pres _ (modify _) => apply pres_modify; uset end
  | fr13o ltac:(uover) ltac:(first [apply RU_po|uset|idtac]) ].
