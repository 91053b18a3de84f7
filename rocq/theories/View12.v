(** What each DTLS 1.2 engine operation does to the fields the handshake logic
    depends on. *)
From Verif Require Import Prelude Types Codec Codec12 Record12 Env Config Context12 Monad MonadFacts
  Timer Window Engine12 Client12 Server12 Engine12Frame.

(** The two states agree on these fields. *)
Record Vsame (a b : Eng12) : Prop := {
  vs_cfg : en_cfg b = en_cfg a;
  vs_suite : en_suite b = en_suite a;
  vs_enl : en_enl b = en_enl a;
  vs_minp : en_minp b = en_minp a;
  vs_crypto : en_crypto b = en_crypto a;
  vs_penc : en_penc b = en_penc a;
  vs_client : en_client b = en_client a;
  vs_peer_hs : en_peer_hs b = en_peer_hs a;
  vs_next_hs : en_next_hs b = en_next_hs a;
  vs_transcript : en_transcript b = en_transcript a;
  vs_connect : en_connect b = en_connect a;
  vs_flight : en_flight b = en_flight a;
  vs_release : en_release b = en_release a;
  vs_bo : en_bo b = en_bo a }.

Lemma Vsame_refl a : Vsame a a.
Proof. constructor; reflexivity. Qed.
Lemma Vsame_trans a b c : Vsame a b -> Vsame b c -> Vsame a c.
Proof. intros [] []. constructor; congruence. Qed.
Lemma Vsame_po : preorder Vsame.
Proof. split; [exact Vsame_refl|exact Vsame_trans]. Qed.

Ltac vset := intros; constructor; reflexivity.
Ltac vpre := first [exact Vsame_po | vset].

Section View.
Variable E : Env.

Lemma v_create_record ct ep save f : pres Vsame (create_record E ct ep save f).
Proof. apply fr_create_record; vpre. Qed.
Lemma v_next_record w : pres Vsame (next_record w).
Proof. apply fr_next_record; vpre. Qed.
Lemma v_drop_ccs : pres Vsame drop_pending_ccs.
Proof. apply fr_drop_ccs; vpre. Qed.
Lemma v_discard : pres Vsame discard_pending_writes.
Proof. apply fr_discard; vpre. Qed.
Lemma v_parse p : pres Vsame (eng12_parse_packet E p).
Proof. apply fr_parse_packet; vpre. Qed.
Lemma v_poll cap now : pres Vsame (eng12_poll_output cap now).
Proof. apply fr_poll_output; vpre. Qed.
Lemma v_random_with_time now : pres Vsame (random_with_time E now).
Proof. apply fr_random_with_time; vpre. Qed.
Lemma v_rand_bytes n : pres Vsame (rand_bytes E n).
Proof. apply fr_rand_bytes; vpre. Qed.
Lemma v_draw : pres Vsame draw.
Proof. apply fr_draw; vpre. Qed.
Lemma v_flight_resend : pres Vsame (flight_resend E).
Proof. apply fr_flight_resend; vpre. Qed.

Lemma v_flight_begin (Q : res unit -> Eng12 -> Prop) e :
  (forall b e', Vsame (set_en_bo b (set_en_flight Unarmed e)) e' -> Q (Ok tt) e') ->
  wp (flight_begin E) Q e.
Proof.
  intros H. unfold flight_begin, draw. wps. eapply H. constructor; reflexivity.
Qed.

Lemma v_enable_peer (Q : res unit -> Eng12 -> Prop) e :
  (forall r e', Vsame (set_en_penc true e) e' -> Q r e') -> wp (enable_peer_encryption E) Q e.
Proof.
  intros H. unfold enable_peer_encryption. wps. cbn [en_rx set_en_penc].
  destruct (split_epoch1 _) as [keep again]. wps.
  eapply wp_mono; [apply (wp_pres Vsame), (pres_iterM _ Vsame_po); intro; apply v_parse|].
  cbv beta. intros r e' HV. apply H. eapply Vsame_trans; [|exact HV]. vset.
Qed.

Lemma v_flight_stop (Q : res unit -> Eng12 -> Prop) e :
  (forall e', Vsame (set_en_connect Disabled (set_en_flight Disabled e)) e' -> Q (Ok tt) e') ->
  wp flight_stop_resend_timers Q e.
Proof. intros H. unfold flight_stop_resend_timers. wps; apply H; vset. Qed.

Lemma v_abort (Q : res unit -> Eng12 -> Prop) e :
  (forall e', Vsame (set_en_connect Disabled (set_en_flight Disabled e)) e' -> Q (Ok tt) e') ->
  wp eng12_abort Q e.
Proof. intros H. unfold eng12_abort. wps; apply H; vset. Qed.

Lemma v_release (Q : res unit -> Eng12 -> Prop) e :
  (forall e', Vsame (set_en_release true e) e' -> Q (Ok tt) e') -> wp release_application_data Q e.
Proof. intros H. unfold release_application_data. wps; apply H; vset. Qed.

Lemma v_reset_client (Q : res unit -> Eng12 -> Prop) e :
  (forall e', Vsame (set_en_transcript [] e) e' -> Q (Ok tt) e') -> wp reset_client_for_hvr Q e.
Proof. intros H. unfold reset_client_for_hvr. wps; apply H; vset. Qed.
Lemma v_reset_server (Q : res unit -> Eng12 -> Prop) e :
  (forall e', Vsame (set_en_transcript [] e) e' -> Q (Ok tt) e') -> wp reset_server_for_hvr Q e.
Proof. intros H. unfold reset_server_for_hvr. wps; apply H; vset. Qed.

Lemma v_set_suite cs (Q : res unit -> Eng12 -> Prop) e :
  (find12 E cs = None -> Q (Panic 1136) e) ->
  (forall i e', find12 E cs = Some i ->
     Vsame (set_en_suite (Some cs) (set_en_minp (s12_enl i + s12_tag i) (set_en_enl (s12_enl i) e))) e' ->
     Q (Ok tt) e') ->
  wp (set_cipher_suite E cs) Q e.
Proof.
  intros H1 H2. unfold set_cipher_suite. destruct (find12 E cs) as [i|] eqn:Hf; wps;
    [eapply H2; [reflexivity|vset]|auto].
Qed.

Lemma v_crypto_op (f : Crypto12 -> bool * Crypto12) (Q : res unit -> Eng12 -> Prop) e :
  (forall (b : bool) k e', f (en_crypto e) = (b, k) -> Vsame (set_en_crypto k e) e' ->
     Q (if b then Ok tt else Err ECrypto) e') ->
  wp (crypto_op f) Q e.
Proof.
  intros H. unfold crypto_op, wp. destruct (f (en_crypto e)) as [b k] eqn:Hf. cbn.
  eapply H; [reflexivity|vset].
Qed.

(** Only the timers moved: a running one keeps running, a disabled one stays so. *)
Record Tsame (a b : Eng12) : Prop := {
  ts_cfg : en_cfg b = en_cfg a;
  ts_suite : en_suite b = en_suite a;
  ts_crypto : en_crypto b = en_crypto a;
  ts_penc : en_penc b = en_penc a;
  ts_client : en_client b = en_client a;
  ts_peer_hs : en_peer_hs b = en_peer_hs a;
  ts_next_hs : en_next_hs b = en_next_hs a;
  ts_transcript : en_transcript b = en_transcript a;
  ts_release : en_release b = en_release a;
  ts_connect : en_connect b = Disabled <-> en_connect a = Disabled;
  ts_flight : en_flight b = Disabled <-> en_flight a = Disabled }.

Lemma Vsame_Tsame a b : Vsame a b -> Tsame a b.
Proof. intros []. constructor; try congruence; split; congruence. Qed.
Lemma Tsame_trans a b c : Tsame a b -> Tsame b c -> Tsame a c.
Proof. intros [] []. constructor; try congruence; tauto. Qed.

Lemma v_handle_timeout now : pres Tsame (eng12_handle_timeout E now).
Proof.
  intro e. apply (pres_wp Tsame). clear e. intro e. unfold eng12_handle_timeout.
  assert (K0 : forall e1, Tsame e e1 -> wp (let! s := get in
    if match en_connect s with Armed c => c <=? now | _ => false end then fail (ETimeout TO_Connect)
    else match en_flight s with
    | Armed f =>
      if f <=? now then
        if backoff_can_retry (en_bo s) then
          let! t := draw in
          modify (fun s => set_en_bo (backoff_attempt (en_bo s) (e_jitter E t)) s) ;;;
          modify (fun s => set_en_flight (Armed (now + backoff_rto (en_bo s))) s) ;;;
          flight_resend E
        else fail (ETimeout TO_Handshake)
      else ret tt
    | _ => ret tt
    end) (fun _ s' => Tsame e s') e1).
  { intros e1 T1. wps; try exact T1. unfold draw. wps.
    eapply wp_mono; [apply (wp_pres Vsame), v_flight_resend|]. cbv beta. intros r e' HV.
    eapply Tsame_trans; [exact T1|]. eapply Tsame_trans; [|apply Vsame_Tsame; exact HV].
    constructor; try reflexivity. cbn. split; congruence. }
  assert (K1 : forall e1 b, Tsame e e1 -> wp (
    when (timeout_is_unarmed (en_flight e)) (modify (set_en_flight (Armed b))) ;;;
    let! s := get in
    if match en_connect s with Armed c => c <=? now | _ => false end then fail (ETimeout TO_Connect)
    else match en_flight s with
    | Armed f =>
      if f <=? now then
        if backoff_can_retry (en_bo s) then
          let! t := draw in
          modify (fun s => set_en_bo (backoff_attempt (en_bo s) (e_jitter E t)) s) ;;;
          modify (fun s => set_en_flight (Armed (now + backoff_rto (en_bo s))) s) ;;;
          flight_resend E
        else fail (ETimeout TO_Handshake)
      else ret tt
    | _ => ret tt
    end) (fun _ s' => Tsame e s') e1).
  { intros e1 b T1. apply wp_bind, wp_when; intros H; [apply wp_modify|]; apply K0; [|exact T1].
    eapply Tsame_trans; [exact T1|]. constructor; try reflexivity. cbn. split; [discriminate|].
    intros X. apply (ts_flight _ _ T1) in X. rewrite X in H. discriminate. }
  apply wp_bind, wp_get, wp_bind, wp_when; intros H; [apply wp_modify|]; apply K1.
  - constructor; try reflexivity. cbn. split; [discriminate|]. intros X. rewrite X in H. discriminate.
  - apply Vsame_Tsame, Vsame_refl.
Qed.

Definition hs_msg (mt seq : N) (raw : bytes) : bytes :=
  s_hs_header mt (len raw) seq 0 (len raw) ++ raw.

(** [create_handshake] appends its message to the transcript, whether or not
    sending it works. *)
Lemma v_frag_loop fuel mt total seq epoch prot : forall offset rest,
  pres Vsame (frag_loop E fuel mt total seq epoch prot offset rest).
Proof. intros. apply fr_frag_loop; vpre. Qed.

Lemma v_create_handshake mt mk (Q : res unit -> Eng12 -> Prop) e :
  wp mk (fun r e1 =>
    match r with
    | Ok body => forall r' e',
        Vsame (set_en_next_hs (u16 (en_next_hs e1 + 1)) (set_en_transcript
          (en_transcript e1 ++ s_hs_header mt (u32 (len body)) (en_next_hs e1) 0 (u32 (len body)) ++ body)
          e1)) e' -> Q r' e'
    | Err x => Q (Err x) e1
    | Panic n => Q (Panic n) e1
    end) e ->
  wp (create_handshake E mt mk) Q e.
Proof.
  intros H. unfold create_handshake. apply wp_bind. eapply wp_mono; [exact H|]. clear H.
  intros [body|x|n] e1 H; [|exact H|exact H].
  apply wp_bind, wp_get. apply wp_bind, wp_modify. apply wp_bind, wp_modify.
  set (e2 := set_en_next_hs _ _).
  assert (HV : Vsame (set_en_next_hs (u16 (en_next_hs e1 + 1)) (set_en_transcript
          (en_transcript e1 ++ s_hs_header mt (u32 (len body)) (en_next_hs e1) 0 (u32 (len body)) ++ body)
          e1)) e2) by vset.
  clearbody e2.
  assert (K : forall prot, wp (match body with
    | [] => create_record E CT_HS (mt12_epoch mt) true (s_hs_header mt (u32 (len body)) (en_next_hs e1) 0 0)
    | _ :: _ => frag_loop E (length body + N.to_nat (c_max_tx (en_cfg e1)) + 2) mt (u32 (len body))
                  (en_next_hs e1) (mt12_epoch mt) prot 0 body
    end) Q e2).
  { intro prot. destruct body.
    - eapply wp_mono; [apply (wp_pres Vsame), v_create_record|]. cbv beta. intros r e' HV'.
      apply H. eapply Vsame_trans; eassumption.
    - eapply wp_mono; [apply (wp_pres Vsame), v_frag_loop|]. cbv beta. intros r e' HV'.
      apply H. eapply Vsame_trans; eassumption. }
  apply wp_bind. destruct (1 <=? mt12_epoch mt); [|apply wp_ret, K].
  destruct (en_suite e1); [apply wp_ret, K|]. apply wp_fail. apply H. exact HV.
Qed.

Lemma skip_while_app_true {A} (p : A -> bool) l l' :
  forallb p l = true -> skip_while p (l ++ l') = skip_while p l'.
Proof.
  induction l as [|x l IH]; cbn [forallb app skip_while]; [reflexivity|].
  destruct (p x); [exact IH|discriminate].
Qed.

Lemma skip_while_prefix {A} (p : A -> bool) l l' x y z w :
  skip_while p l = x :: y -> skip_while p (l ++ l') = z :: w -> z = x.
Proof.
  induction l as [|a l IH]; cbn [app skip_while]; [discriminate|].
  destruct (p a); [exact IH|]. congruence.
Qed.

(** Both views of the receive queue start with the same fragment. *)
Lemma first_frag_agrees rs n x y z w :
  skip_while f_handled (flat_map r_hs (firstn n (skip_while rec_handled rs))) = x :: y ->
  skip_while f_handled (flat_map r_hs rs) = z :: w -> z = x.
Proof.
  induction rs as [|r rs IH]; cbn [skip_while flat_map]; [destruct n; discriminate|].
  destruct (rec_handled r) eqn:Hr.
  - intros H1 H2. rewrite skip_while_app_true in H2; [auto|].
    unfold rec_handled in Hr. destruct (r_hs r); [reflexivity|exact Hr].
  - intros H1 H2.
    change (r_hs r ++ flat_map r_hs rs) with (flat_map r_hs (r :: rs)) in H2.
    rewrite <- (firstn_skipn n (r :: rs)), flat_map_app in H2. eapply skip_while_prefix; eassumption.
Qed.

(** [next_handshake] consumes one complete message of the wanted type, with the
    expected number, and appends it to the transcript; or does nothing; or fails. *)
Lemma v_next_handshake w (Q : res (option Msg12) -> Eng12 -> Prop) e :
  Q (Ok None) e ->
  (forall x e', Vsame e e' -> Q (Err x) e') ->
  (forall n e', Vsame e e' -> Q (Panic n) e') ->
  (forall m e' rest, m_type m = w -> m_seq m = en_peer_hs e ->
     p_body12 w (en_suite e) (m_raw m) = Some (m_body m, rest) ->
     (rest = [] \/ rejects_trailing12 w = false) ->
     Vsame (set_en_peer_hs (u16 (en_peer_hs e + 1))
             (set_en_transcript (en_transcript e ++ hs_msg w (en_peer_hs e) (m_raw m)) e)) e' ->
     Q (Ok (Some m)) e') ->
  wp (next_handshake w) Q e.
Proof.
  intros Hnone Herr Hpanic Hsome. unfold next_handshake. apply wp_bind, wp_get.
  destruct (has_complete_handshake e w) eqn:Hc; cbn [negb]; [|apply wp_ret, Hnone].
  destruct (skip_while f_handled (all_frags (en_rx e))) as [|first more] eqn:Hs.
  { apply wp_panic, Hpanic, Vsame_refl. }
  destruct (Nat.ltb _ _); [apply wp_fail, Herr, Vsame_refl|].
  set (buffer := flat_map f_data _).
  destruct (negb (len buffer =? f_length first)) eqn:Hl; [apply wp_fail, Herr, Vsame_refl|].
  assert (Hlen : f_length first = len buffer) by lia.
  assert (Hty : f_type first = w /\ f_seq first = en_peer_hs e).
  { clear Hnone Herr Hpanic Hsome. unfold has_complete_handshake in Hc.
    destruct (skip_while f_handled (flat_map r_hs _)) as [|f0 l0] eqn:Hf; [discriminate|].
    pose proof (first_frag_agrees _ _ _ _ _ _ Hf Hs) as ->.
    destruct (f_seq f0 =? en_peer_hs e) eqn:H1, (f_type f0 =? w) eqn:H2; cbn [negb] in Hc;
      try discriminate. lia. }
  destruct Hty as [Hty Hsq].
  destruct (p_body12 (f_type first) (en_suite e) buffer) as [[body rest]|] eqn:Hp.
  - apply wp_bind, wp_modify. destruct (_ && _) eqn:Hr.
    + apply wp_fail, Herr. vset.
    + apply wp_bind, wp_modify. apply wp_bind, wp_modify. apply wp_ret.
      eapply (Hsome (mkMsg _ _ _ _) _ rest); cbn [m_type m_seq m_raw m_body].
      * exact Hty.
      * exact Hsq.
      * rewrite <- Hty. exact Hp.
      * rewrite <- Hty. destruct rest; [auto|]. cbn in Hr. auto.
      * rewrite Hty, Hsq, Hlen. vset.
  - apply wp_bind, wp_modify. apply wp_fail, Herr. vset.
Qed.
End View.

(** Compute field reads through field updates; read through [Vsame]. *)
Ltac ecbn := cbn [en_cfg set_en_cfg en_seq0 set_en_seq0 en_seqn set_en_seqn en_rx set_en_rx en_tx set_en_tx en_suite set_en_suite en_enl set_en_enl en_minp set_en_minp en_crypto set_en_crypto en_penc set_en_penc en_client set_en_client en_peer_hs set_en_peer_hs en_next_hs set_en_next_hs en_transcript set_en_transcript en_replay set_en_replay en_saved set_en_saved en_bo set_en_bo en_flight set_en_flight en_connect set_en_connect en_release set_en_release en_confirmed set_en_confirmed en_cn_recv set_en_cn_recv en_cn_rep set_en_cn_rep en_orc set_en_orc cl_state set_cl_state cl_eng set_cl_eng cl_random set_cl_random cl_sid set_cl_sid cl_cookie set_cl_cookie cl_srtp set_cl_srtp cl_srandom set_cl_srandom cl_certs set_cl_certs cl_cv set_cl_cv cl_sh set_cl_sh cl_now set_cl_now cl_events set_cl_events cl_queued set_cl_queued k_kx set_k_kx k_kx_pub set_k_kx_pub k_kx_group set_k_kx_group k_civ set_k_civ k_siv set_k_siv k_ms set_k_ms k_pms set_k_pms k_ccipher set_k_ccipher k_scipher set_k_scipher k_auth set_k_auth k_psk set_k_psk k_crandom set_k_crandom k_srandom set_k_srandom sv_state set_sv_state sv_eng set_sv_eng sv_random set_sv_random sv_secret set_sv_secret sv_srtp set_sv_srtp sv_groups set_sv_groups sv_sigalgs set_sv_sigalgs sv_crandom set_sv_crandom sv_certs set_sv_certs sv_sh set_sv_sh sv_psk_valid set_sv_psk_valid sv_now set_sv_now sv_events set_sv_events sv_queued set_sv_queued].
Ltac ecbn_in H := cbn [en_cfg set_en_cfg en_seq0 set_en_seq0 en_seqn set_en_seqn en_rx set_en_rx en_tx set_en_tx en_suite set_en_suite en_enl set_en_enl en_minp set_en_minp en_crypto set_en_crypto en_penc set_en_penc en_client set_en_client en_peer_hs set_en_peer_hs en_next_hs set_en_next_hs en_transcript set_en_transcript en_replay set_en_replay en_saved set_en_saved en_bo set_en_bo en_flight set_en_flight en_connect set_en_connect en_release set_en_release en_confirmed set_en_confirmed en_cn_recv set_en_cn_recv en_cn_rep set_en_cn_rep en_orc set_en_orc cl_state set_cl_state cl_eng set_cl_eng cl_random set_cl_random cl_sid set_cl_sid cl_cookie set_cl_cookie cl_srtp set_cl_srtp cl_srandom set_cl_srandom cl_certs set_cl_certs cl_cv set_cl_cv cl_sh set_cl_sh cl_now set_cl_now cl_events set_cl_events cl_queued set_cl_queued k_kx set_k_kx k_kx_pub set_k_kx_pub k_kx_group set_k_kx_group k_civ set_k_civ k_siv set_k_siv k_ms set_k_ms k_pms set_k_pms k_ccipher set_k_ccipher k_scipher set_k_scipher k_auth set_k_auth k_psk set_k_psk k_crandom set_k_crandom k_srandom set_k_srandom sv_state set_sv_state sv_eng set_sv_eng sv_random set_sv_random sv_secret set_sv_secret sv_srtp set_sv_srtp sv_groups set_sv_groups sv_sigalgs set_sv_sigalgs sv_crandom set_sv_crandom sv_certs set_sv_certs sv_sh set_sv_sh sv_psk_valid set_sv_psk_valid sv_now set_sv_now sv_events set_sv_events sv_queued set_sv_queued] in H.
Ltac vrw := ecbn; repeat (match goal with
  | H : Vsame ?a ?b |- context [en_cfg ?b] => rewrite (vs_cfg a b H)
  | H : Vsame ?a ?b |- context [en_suite ?b] => rewrite (vs_suite a b H)
  | H : Vsame ?a ?b |- context [en_enl ?b] => rewrite (vs_enl a b H)
  | H : Vsame ?a ?b |- context [en_minp ?b] => rewrite (vs_minp a b H)
  | H : Vsame ?a ?b |- context [en_crypto ?b] => rewrite (vs_crypto a b H)
  | H : Vsame ?a ?b |- context [en_penc ?b] => rewrite (vs_penc a b H)
  | H : Vsame ?a ?b |- context [en_client ?b] => rewrite (vs_client a b H)
  | H : Vsame ?a ?b |- context [en_peer_hs ?b] => rewrite (vs_peer_hs a b H)
  | H : Vsame ?a ?b |- context [en_next_hs ?b] => rewrite (vs_next_hs a b H)
  | H : Vsame ?a ?b |- context [en_transcript ?b] => rewrite (vs_transcript a b H)
  | H : Vsame ?a ?b |- context [en_connect ?b] => rewrite (vs_connect a b H)
  | H : Vsame ?a ?b |- context [en_flight ?b] => rewrite (vs_flight a b H)
  | H : Vsame ?a ?b |- context [en_release ?b] => rewrite (vs_release a b H)
  | H : Vsame ?a ?b |- context [en_bo ?b] => rewrite (vs_bo a b H)
  end; ecbn).
