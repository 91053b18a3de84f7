(** The ledger of Nonce13.v through every call of a DTLS 1.3 endpoint. *)
From Verif Require Import Prelude PreludeFacts Types Codec Codec12 Codec13 Record12 Record13 Monad MonadFacts Timer
  Env Config Aead Prf Window SeqRecon Engine12 Queue12Proofs Client12 Engine13 Client13 Server13 Frame13 History12 History12Facts
  History13 Lift13 Trace13 Trace13Proofs Out13 Send13Proofs Index13 Nonce13.

Lemma LI_weaken E q lev lev' os e : lev <= lev' -> LI E q lev os e -> LI E q lev' os e.
Proof.
  intros Hl (rss & L). exists rss. destruct L as [L1 L2 L3 L4 L5 L6 L7 L8]. constructor; auto.
  - intros K. apply L4. lia.
  - intros K. apply L5. lia.
  - eapply Forall_impl; [|exact L6]. unfold saved_ok. intros x [K|[K|(K & K1 & K2)]]; auto.
    right. right. split; [lia|]. split; [exact K1|]. intros K3. specialize (K2 K3). lia.
  - intros K. destruct (L8 K) as [N1 N2]. split; [exact N1|]. eapply Forall_impl; [|exact N2].
    intros z (Z1 & Z2 & Z3). split; [exact Z1|]. split; [exact Z2|]. intros K1 K2. destruct (Z3 K1 K2). split; [lia|assumption].
Qed.
(** Without the handshake epoch the first two levels are the same. *)
Lemma LI_lower E os e : LI E false 1 os e -> LI E false 0 os e.
Proof.
  intros (rss & L). exists rss. destruct L as [L1 L2 L3 L4 L5 L6 L7 L8]. constructor; try assumption.
  discriminate.
Qed.
Lemma LI_install_hs E q os c sv e : (q = false \/ g_hs_send e = None) -> LI E q 0 os e ->
  wp (install_handshake_keys E c sv) (fun r e' => match r with Ok _ => LI E q 1 os e' /\ g_hs_send e' <> None
    | _ => LI E q 0 os e' \/ (LI E q 1 os e' /\ g_hs_send e' <> None) end) e.
Proof.
  intros Hc H. unfold install_handshake_keys. apply wp_bind, wp_get. destruct (if g_client e then _ else _) as [a b].
  pose proof (@preorder_eq Eng13 Eng13 (fun s => s)) as PO.
  apply wp_bind, (wp_same _ _ _ (op_derive_epoch_keys E _ PO a)). intros [ks|x|n]; [|left; exact H..].
  apply wp_bind, wp_modify.
  assert (H1 : forall n, LI E q 1 os (set_g_hs_seq n (set_g_hs_send (Some ks) e))).
  { intros n. apply LI_hs_fields; [exact Hc|lia|]. apply (LI_weaken E q 0); [lia|exact H]. }
  assert (H2 : LI E q 1 os (set_g_hs_send (Some ks) e)).
  { specialize (H1 (g_hs_seq e)). destruct e; exact H1. }
  apply wp_bind, (wp_same _ _ _ (op_derive_epoch_keys E _ PO b)). intros [kr|x|n]; [|right; split; [exact H2|discriminate]..].
  apply wp_bind, wp_modify, wp_modify. split; [|discriminate].
  refine (LI_frame _ _ _ _ _ _ _ _ _ _ _ _ _ _ _ _ (H1 0)); reflexivity.
Qed.

Ltac nset := intros; unfold RI; apply LI_frame; reflexivity.
Ltac lover := idtac; lazymatch goal with
  | |- pres _ (insert_handshake13 _ _ _ _) => apply LI_insert_hs
  | |- pres _ (process_ack _ _) => apply LI_process_ack
  | |- pres _ (create_plain13 _ _ _) => apply LI_plain
  | |- pres _ (create_cipher13 _ _ 2 _ _) => apply LI_cipher2
  | |- pres _ (flight_begin13 _) => apply LI_flight_begin
  | |- pres _ (flight_resend13 _) => apply LI_resend
  | |- pres _ (eng13_parse_packet _ _) => apply LI_parse
  | |- pres _ (enable_peer_encryption13 _) => apply LI_enable
  | |- pres _ (eng13_handle_timeout _ _) => apply LI_timeout
  | |- pres _ cancel_flights => apply LI_cancel
  | |- pres _ (send_ack13 _) => apply LI_send_ack; lia
  | |- pres _ (send_ack_retransmittable _) => apply LI_send_ack_retr; lia
  | |- pres _ (create_key_update _ _) => apply LI_key_update; lia
  | |- pres _ (install_application_keys _ _ _) => apply LI_install_app; lia
  | |- pres _ eng13_abort => apply LI_abort; lia
  | |- pres _ reset_for_hello_retry => apply LI_reset; auto
  | |- pres _ (derive_handshake_secrets _ _) => apply op_derive_hs, RI_po
  | |- pres _ (derive_application_secrets _ _) => apply op_derive_app; [apply RI_po|nset]
  | |- pres _ (compute_verify_data _ _) => apply op_verify_data, RI_po
  | |- pres _ (transcript_hash13 _) => apply op_transcript_hash, RI_po
  | |- pres _ (keying13 _ _) => apply op_keying, RI_po
  | |- pres _ (create_client_hello13 _ _ _ _ _) => apply fr_create_ch13, RI_po
  | |- pres _ (create_certificate13 _) => apply fr_create_cert13, RI_po
  | |- pres _ (create_certificate_verify13 _ _) => apply fr_create_cv13; [apply RI_po|nset]
  | |- pres _ (check_certificate_verify _ _ _ _ _ _) => apply fr_check_cv13, RI_po
  | |- pres _ (ret _) => apply pres_ret, RI_po
  | |- pres _ (next_handshake13 _) => apply op_next_hs; first [apply RI_po|nset]
  | |- pres _ (next_handshake13_no_transcript _) => apply op_next_hs; first [apply RI_po|nset]
  | |- pres _ next_client_hello_auto => apply op_next_hs; first [apply RI_po|nset]
  end.
Ltac lhs := apply LI_create_hs.
Ltac eop := first
  [ solve [lover]
  | lazymatch goal with |- pres _ (create_handshake13 _ _ _) => apply LI_create_hs; eop end
  | lazymatch goal with |- pres _ (modify _) => apply pres_modify; nset end
  | fr13o ltac:(lover) ltac:(first [apply RI_po|nset|idtac]) ].
Ltac ezoom := lazymatch goal with
  | |- pres _ (xeng _) => eapply pres_zoom; [|eop]; intros; assumption
  | |- pres _ (yeng _) => eapply pres_zoom; [|eop]; intros; assumption
  end.

Section Client.
Variable E : Env.
Variable q : bool.
Variable os : list Output.
Variable lev : N.
Definition RX (a b : Client13) : Prop := LI E q lev os (xc_eng a) -> LI E q lev os (xc_eng b).
Lemma RX_po : preorder RX.
Proof. split; unfold RX; auto. Qed.
Lemma RX_eng {A} (m : M Eng13 A) : pres (RI E q lev os) m -> pres RX (xeng m).
Proof. intros H. apply (pres_zoom _ (RI E q lev os)); [intros s t K; exact K|exact H]. Qed.
Ltac cmod := apply pres_modify; intros ? K; exact K.
Ltac cx := first [cmod | lazymatch goal with |- pres _ (xeng _) => apply RX_eng; eop end].

Lemma x_hrr_exts es : pres RX (hrr_extensions es).
Proof. induction es as [|[t d] es IH]; cbn [hrr_extensions]; presauto RX_po ltac:(first [exact IH|cx]). Qed.
Lemma x_ee_exts es : pres RX (ee13_extensions es).
Proof. induction es as [|[t d] es IH]; cbn [ee13_extensions]; presauto RX_po ltac:(first [exact IH|cx]). Qed.
Lemma x_ch : pres RX (x_send_client_hello E).
Proof. unfold x_send_client_hello. presauto RX_po cx. Qed.
Lemma x_hrr h n : (q = false \/ lev = 0) -> pres RX (x_hello_retry E h n).
Proof. intros Hq. unfold x_hello_retry. presauto RX_po ltac:(first [apply x_hrr_exts|cx]). Qed.
Lemma x_low st : lev = 1 ->
  match st with CT_AwaitEncryptedExtensions | CT_AwaitCertificateRequest | CT_AwaitCertificate
  | CT_AwaitCertificateVerify | CT_AwaitFinished | CT_SendCertificate | CT_SendCertificateVerify | CT_SendFinished => True | _ => False end ->
  pres RX (x_step E st).
Proof.
  intros Hl Hs. destruct st; try contradiction; cbn [x_step];
    unfold x_await_encrypted_extensions, x_await_certificate_request, x_await_certificate,
      x_await_certificate_verify, x_await_finished, x_send_certificate, x_send_certificate_verify, x_send_finished;
    presauto RX_po ltac:(first [apply x_ee_exts|cx]).
Qed.
(** The queued application data goes out in the current epoch. *)
Lemma x_drain ds : 3 <= lev -> forall c, LI E q lev os (xc_eng c) ->
  LI E q lev os (xc_eng (snd (iterM (fun d => xeng (create_cipher13 E CT_APP (g_epoch (xc_eng c)) false d)) ds c))).
Proof.
  intros Hl c H.
  pose proof (pres_iterM (fun a b => g_epoch (xc_eng a) = g_epoch (xc_eng c) /\ LI E q lev os (xc_eng a) ->
     g_epoch (xc_eng b) = g_epoch (xc_eng c) /\ LI E q lev os (xc_eng b))) as P.
  specialize (P ltac:(split; auto)). specialize (P _ (fun d => xeng (create_cipher13 E CT_APP (g_epoch (xc_eng c)) false d))).
  apply P; [|auto]. intros d. eapply pres_zoom; [|apply (LI_app_cipher E q lev os CT_APP d (g_epoch (xc_eng c)) Hl)].
  intros s t K. exact K.
Qed.
Lemma x_app : 3 <= lev -> pres RX (x_await_application_data E).
Proof.
  intros Hl. unfold x_await_application_data.
  apply (pres_bind _ RX_po); [cx|]. intros needs.
  apply (pres_bind _ RX_po); [apply (pres_get _ RX_po)|]. intros c0.
  apply (pres_bind _ RX_po); [presauto RX_po cx|]. intros _.
  intros c1 H1. unfold bind at 1, get. cbv beta iota. unfold bind at 1, modify. cbv beta iota.
  pose proof (x_drain (xc_queued c1) Hl (set_xc_queued [] c1) H1) as K.
  change (xc_eng (set_xc_queued [] c1)) with (xc_eng c1) in K. unfold bind at 1.
  destruct (iterM _ _ _) as [r c2]. cbn [snd] in K. destruct r as [u|x|n]; [|exact K..].
  revert K. revert c2. match goal with |- forall c2, _ -> LI _ _ _ _ (xc_eng (snd (?m c2))) => change (pres RX m) end.
  presauto RX_po cx.
Qed.
Lemma x_half : pres RX (x_half_closed_local E).
Proof. unfold x_half_closed_local. presauto RX_po cx. Qed.
End Client.

(** The states a step can lead to. *)
Definition c_level (st : CState13) (lev : N) : Prop :=
  match st with
  | CT_SendClientHello | CT_AwaitServerHello => lev = 0
  | CT_AwaitApplicationData | CT_HalfClosedLocal => lev = 3
  | CT_Closed => True
  | _ => lev = 1
  end.
Lemma x_next E st : match st with CT_SendClientHello | CT_AwaitServerHello => False | _ => True end ->
  rets (fun st' => match st' with CT_SendClientHello | CT_AwaitServerHello => False
                | CT_AwaitApplicationData | CT_HalfClosedLocal | CT_Closed => st = CT_SendFinished \/ c_level st 3
                | _ => c_level st 1 /\ st <> CT_Closed end) (x_step E st).
Proof.
  intros Hs. destruct st; try contradiction; cbn [x_step];
    unfold x_await_encrypted_extensions, x_await_certificate_request, x_await_certificate,
      x_await_certificate_verify, x_await_finished, x_send_certificate, x_send_certificate_verify, x_send_finished,
      x_await_application_data, x_half_closed_local;
    rets ltac:(repeat match goal with |- context [if ?b then _ else _] => destruct b end;
      solve [split; [reflexivity|discriminate]|auto|right; reflexivity|right; exact I]).
Qed.
Lemma x_next_ch E : rets (fun st' => st' = CT_AwaitServerHello) (x_send_client_hello E).
Proof. unfold x_send_client_hello. rets ltac:(reflexivity). Qed.

(** A client whose ServerHello step failed half-way: the handshake keys are installed,
    but the client still waits for a ServerHello. *)
Definition half_done (c : Client13) : Prop := xc_state c = CT_AwaitServerHello /\ g_hs_send (xc_eng c) <> None.

Definition JC (E : Env) (q : bool) (os : list Output) (c : Client13) : Prop :=
  exists lev, c_level (xc_state c) lev /\ LI E q lev os (xc_eng c).

Section ClientJ.
Variable E : Env.
Variable q : bool.
Notation J := (JC E q).
Definition BC (c : Client13) : Prop := q = true /\ half_done c.

Lemma enable_hs_send : pres (fun a b => g_hs_send a = g_hs_send b) (enable_peer_encryption13 E).
Proof. fr13 ltac:(first [apply (@preorder_eq Eng13 (option Keys13) g_hs_send)|intros; reflexivity|idtac]). Qed.

Lemma c_server_hello_step os c h : LI E q 0 os (xc_eng c) ->
  wp (x_server_hello E h) (fun r c' => match r with
    | Ok st => st = CT_AwaitEncryptedExtensions /\ LI E q 1 os (xc_eng c')
    | _ => LI E q 0 os (xc_eng c') \/ (LI E q 1 os (xc_eng c') /\ g_hs_send (xc_eng c') <> None) end) c.
Proof.
  intros H. unfold x_server_hello. apply wp_bind, wp_get.
  destruct (negb _); [left; exact H|]. destruct (negb _); [left; exact H|]. destruct (negb _); [left; exact H|].
  destruct (negb _); [left; exact H|].
  apply wp_bind, wp_zoom, wp_modify, wp_bind, wp_modify.
  set (c1 := set_xc_sid _ _). assert (H1 : LI E q 0 os (xc_eng c1)) by (refine (LI_frame _ _ _ _ _ _ _ _ _ _ _ _ _ _ _ _ H); reflexivity).
  clearbody c1. clear H. destruct (sh_exts h) as [es|]; [|left; exact H1]. destruct (negb _); [left; exact H1|].
  destruct (sh13_share es) as [[sg peer]|]; [|left; exact H1]. destruct (xc_kx c) as [[[group secret] pub]|]; [|left; exact H1].
  apply wp_bind, wp_modify. change (xc_eng c1) with (xc_eng (set_xc_kx None c1)) in H1.
  revert H1. generalize (set_xc_kx None c1). clear c1. intros c1 H1.
  destruct (negb _); [left; exact H1|]. apply wp_bind, wp_of_opt. destruct (e_kx_complete E group secret peer) as [shared|]; [|left; exact H1].
  apply wp_bind. apply wp_mono with (P := fun _ c' => LI E q 0 os (xc_eng c')).
  { apply (RX_eng E q os 0 _ (op_derive_hs E _ (RI_po E q 0 os) shared) c1 H1). }
  clear c1 H1. intros r c1 H1. destruct r as [sec|x|n]; [|left; exact H1..].
  apply wp_bind, wp_modify, wp_bind, wp_modify, wp_bind, wp_modify.
  set (c2 := set_xc_chs _ _). change (xc_eng c1) with (xc_eng c2) in H1. clearbody c2. clear c1.
  apply wp_bind, wp_zoom. eapply wp_mono; [apply LI_install_hs|].
  { destruct q eqn:Hq; [right|auto]. destruct H1 as (rss & L). apply L; auto. }
  { exact H1. }
  intros r e' K. destruct r as [u|x|n]; [|exact K..]. destruct K as [K1 K2].
  apply wp_bind, wp_zoom. apply wp_mono with (P := fun _ e2 => LI E q 1 os e2 /\ g_hs_send e2 <> None).
  { split; [apply LI_enable, K1|]. pose proof (enable_hs_send e') as Q. cbn beta in Q. cbn [xc_eng set_xc_eng]. rewrite <- Q. exact K2. }
  intros r e2 [Q1 Q2]. destruct r as [v|x|n]; [|right; split; assumption..].
  apply wp_bind, wp_zoom, wp_modify. apply wp_ret. split; [reflexivity|].
  refine (LI_frame _ _ _ _ _ _ _ _ _ _ _ _ _ _ _ _ Q1); reflexivity.
Qed.
Lemma c_await_sh_step os c : LI E q 0 os (xc_eng c) ->
  wp (x_await_server_hello E) (fun r c' => match r with
    | Ok st => (c_level st 0 /\ st <> CT_Closed /\ LI E q 0 os (xc_eng c')) \/ (st = CT_AwaitEncryptedExtensions /\ LI E q 1 os (xc_eng c'))
    | _ => LI E q 0 os (xc_eng c') \/ (LI E q 1 os (xc_eng c') /\ g_hs_send (xc_eng c') <> None) end) c.
Proof.
  intros H. unfold x_await_server_hello. apply wp_bind, wp_get, wp_bind.
  apply wp_mono with (P := fun _ c' => LI E q 0 os (xc_eng c')).
  { refine (RX_eng E q os 0 (next_handshake13 MT_ServerHello) _ c H). eop. }
  intros r c1 H1. destruct r as [o|x|n]; [|left; exact H1..].
  destruct o as [m|]; [|apply wp_ret; left; split; [reflexivity|split; [discriminate|exact H1]]].
  destruct (n_body m); try (apply wp_panic; left; exact H1).
  match goal with |- context [is_hrr ?x] => rename x into h end. destruct (is_hrr h).
  - pose proof (x_hrr E q os 0 h (length (g_transcript (xc_eng c))) (or_intror eq_refl) c1 H1) as K.
    assert (R : rets (fun st => st = CT_SendClientHello) (x_hello_retry E h (length (g_transcript (xc_eng c))))).
    { unfold x_hello_retry. rets ltac:(reflexivity). }
    specialize (R c1). unfold wp. destruct (x_hello_retry _ _ _ c1) as [r c2]. cbn [fst snd] in *.
    destruct r as [st|x|n]; [|left; exact K..]. left. subst st. split; [reflexivity|]. split; [discriminate|exact K].
  - eapply wp_mono; [apply (c_server_hello_step os c1 _ H1)|]. intros r c2 K. destruct r as [st|x|n]; [|exact K..]. right. exact K.
Qed.

Lemma x_rest os st lev : match st with CT_SendClientHello | CT_AwaitServerHello => False | _ => True end ->
  c_level st lev -> pres (RX E q os lev) (x_step E st).
Proof.
  intros Hs Hl. destruct st; try contradiction; cbn [c_level] in Hl; try (apply x_low; [exact Hl|exact I]).
  - apply x_app. lia.
  - apply x_half.
  - apply pres_ret, RX_po.
Qed.
Lemma jc_step os c r c' : J os c -> x_step E (xc_state c) c = (r, c') ->
  match r with Ok st => J os (set_xc_state st c') | _ => J os c' \/ BC c' end.
Proof.
  intros (lev & Hl & H) Hs. pose proof (x_step_state E (xc_state c) c) as Hst. rewrite Hs in Hst. cbn [snd] in Hst.
  assert (D : xc_state c = CT_SendClientHello \/ xc_state c = CT_AwaitServerHello \/
    match xc_state c with CT_SendClientHello | CT_AwaitServerHello => False | _ => True end) by (destruct (xc_state c); auto).
  destruct D as [D|[D|D]].
  - rewrite D in *. cbn [c_level] in Hl. subst lev. pose proof (x_ch E q os 0 c H) as K. pose proof (x_next_ch E c) as R.
    cbn [x_step] in Hs. rewrite Hs in K, R. cbn [fst snd] in K, R.
    destruct r as [st|x|n]; [exists 0; subst st; split; [reflexivity|exact K]|left; exists 0; rewrite <- Hst; split; [reflexivity|exact K]..].
  - rewrite D in *. cbn [c_level] in Hl. subst lev. pose proof (c_await_sh_step os c H) as K. unfold wp in K. cbn [x_step] in Hs. rewrite Hs in K.
    cbn [fst snd] in K. 
    assert (Kf : LI E q 0 os (xc_eng c') \/ (LI E q 1 os (xc_eng c') /\ g_hs_send (xc_eng c') <> None) -> J os c' \/ BC c').
    { intros [K0|[K1 K2]]; [left; exists 0; rewrite <- Hst; split; [reflexivity|exact K0]|].
      unfold BC, half_done, JC. clear K. destruct q eqn:Hq; [right; auto|]. left. exists 0. rewrite <- Hst. split; [reflexivity|].
      apply LI_lower. exact K1. }
    destruct r as [st|x|n]; [|auto..].
    destruct K as [(K1 & _ & K2)|[-> K2]]; [exists 0; split; assumption|exists 1; split; [reflexivity|assumption]].
  - pose proof (x_rest os _ lev D Hl c H) as K. pose proof (x_next E _ D c) as R. rewrite Hs in K, R. cbn [fst snd] in K, R.
    destruct r as [st|x|n]; [|left; exists lev; rewrite <- Hst; split; assumption..].
    destruct (cstate13_eqb (xc_state c) CT_Closed) eqn:Hcl.
    { destruct (xc_state c); try discriminate. cbn [x_step] in Hs. injection Hs as <- <-. exists lev. split; [exact Logic.I|exact K]. }
    assert (Hlev : lev = 1 \/ lev = 3) by (destruct (xc_state c); try contradiction; try discriminate; cbn [c_level] in Hl; auto).
    unfold JC. cbn [xc_state set_xc_state xc_eng].
    destruct st; try contradiction; cbn [c_level];
      first [ exists 3; split; [reflexivity|]; apply (LI_weaken E q lev); [lia|exact K]
            | exists lev; split; [exact Logic.I|exact K]
            | exists 1; split; [reflexivity|]; destruct R as [R1 R2]; replace 1 with lev; [exact K|];
              destruct (xc_state c); try contradiction; try discriminate; cbn [c_level] in *; congruence ].
Qed.

Lemma LI_poll lev cap now os e r e' : LI E q lev os e -> eng13_poll_output cap now e = (r, e') -> LI E q lev (os ++ out_of r) e'.
Proof.
  intros (rss & L) Hp. pose proof (poll_shape cap now e) as W. unfold wp in W. rewrite Hp in W. cbn [fst snd] in W.
  destruct W as (l & v & d & b & -> & W).
  refine (LI_frame E q lev _ (set_g_tx l e) _ _ _ _ _ _ _ _ _ _ _ _); try reflexivity.
  exists rss. destruct L as [L1 L2 L3 L4 L5 L6 L7 L8]. constructor; try assumption.
  rewrite datagrams_app. change (g_tx (set_g_tx l e)) with l. rewrite <- L1, <- app_assoc. f_equal.
  destruct r as [o|x|n]; cbn [out_of datagrams flat_map app]; [|exact W..].
  destruct o; cbn [app]; first [exact W|symmetry; exact W].
Qed.
Lemma LI_quiet lev os os' e : datagrams os' = [] -> LI E q lev os e -> LI E q lev (os ++ os') e.
Proof.
  intros Hd (rss & L). exists rss. destruct L as [L1 L2 L3 L4 L5 L6 L7 L8]. constructor; try assumption.
  rewrite datagrams_app, Hd, app_nil_r. exact L1.
Qed.
Lemma jc_poll cap os c r c' : J os c -> client13_poll_output cap c = (r, c') -> J (os ++ out_of r) c'.
Proof.
  intros (lev & Hl & H) Hp. exists lev. unfold client13_poll_output in Hp. unfold bind, get in Hp.
  destruct (xc_events c) as [|ev evs].
  - unfold xeng, zoom in Hp. destruct (eng13_poll_output cap (xc_now c) (xc_eng c)) as [r1 e1] eqn:He.
    injection Hp as <- <-. split; [exact Hl|]. eapply LI_poll; eassumption.
  - unfold modify in Hp. apply event_no_packet in Hp. destruct Hp as [-> Hd]. split; [exact Hl|]. apply LI_quiet; assumption.
Qed.
Lemma jc_eng {A} (m : M Eng13 A) os c : (forall lev, pres (RI E q lev os) m) -> J os c -> J os (snd (xeng m c)).
Proof.
  intros Hm (lev & Hl & H). exists lev. pose proof (Hm lev (xc_eng c) H) as K. unfold xeng, zoom.
  destruct (m (xc_eng c)) as [r e]. split; [exact Hl|exact K].
Qed.
Lemma LI_app_send lev os ct d e : 3 <= lev -> LI E q lev os e -> LI E q lev os (snd (create_cipher13 E ct (g_epoch e) false d e)).
Proof. intros Hl H. apply (LI_app_cipher E q lev os ct d (g_epoch e) Hl e (conj eq_refl H)). Qed.
Lemma jc_send d os c : J os c -> J os (snd (client13_send E d c)).
Proof.
  intros (lev & Hl & H). unfold client13_send. unfold bind, get.
  destruct (xc_state c) eqn:Hc; try (exists lev; rewrite <- Hc in Hl; split; [exact Hl|exact H]).
  cbn [c_level] in Hl. exists lev. unfold xeng, zoom.
  pose proof (LI_app_send lev os CT_APP d (xc_eng c) ltac:(lia) H) as K.
  destruct (create_cipher13 _ _ _ _ _ _) as [r e]. cbn [snd xc_state set_xc_eng xc_eng] in *. rewrite Hc. split; [exact Hl|exact K].
Qed.
Lemma jc_close os c : J os c -> J os (snd (client13_close E c)).
Proof.
  intros (lev & Hl & H). unfold client13_close. unfold bind at 1, get.
  destruct (xc_state c) eqn:Hc; try (exists lev; cbn [ret snd]; rewrite Hc; split; [exact Hl|exact H]);
    try (exists lev; unfold bind, xeng, zoom, eng13_abort, modify; cbn [snd]; split; [exact Logic.I|];
      apply (LI_abort E q lev os ltac:(cbn [c_level] in Hl; lia) (xc_eng c) H)).
  cbn [c_level] in Hl. unfold bind, xeng, zoom.
  pose proof (LI_app_send lev os CT_ALERT [1; 0] (xc_eng c) ltac:(lia) H) as K.
  destruct (create_cipher13 _ _ _ _ _ _) as [r e]. cbn [snd] in K. destruct r as [u|x|n].
  - unfold cancel_flights, modify. cbn [snd]. exists lev. split; [exact Hl|]. apply (LI_cancel E q lev os e K).
  - exists lev. cbn [snd xc_state set_xc_eng]. rewrite Hc. split; [exact Hl|exact K].
  - exists lev. cbn [snd xc_state set_xc_eng]. rewrite Hc. split; [exact Hl|exact K].
Qed.
Lemma jc_tick now os c : J os c -> J os (draw_random13 E (set_xc_now now c)).
Proof.
  intros (lev & Hl & H). exists lev. unfold draw_random13. cbn [xc_random set_xc_now].
  destruct (xc_random c); (split; [exact Hl|]); [exact H|]. refine (LI_frame _ _ _ _ _ _ _ _ _ _ _ _ _ _ _ _ H); reflexivity.
Qed.
Lemma client_ledger c0 h s : J [] c0 ->
  (q = true -> forall h1 h2 c, h = h1 ++ h2 -> history13 E (XC c0) h1 (XC c) -> ~ half_done c) ->
  history13 E (XC c0) h s -> exists c, s = XC c /\ J (outputs h) c.
Proof.
  intros H0 HB. apply (ao_history_if E J BC).
  - intros p os c. apply jc_eng. intros lev. apply LI_parse.
  - exact jc_tick.
  - intros now os c. apply jc_eng. intros lev. apply LI_timeout.
  - exact jc_step.
  - exact jc_poll.
  - exact jc_send.
  - exact jc_close.
  - exact H0.
  - intros h1 h2 c K1 K2 [Hq Hd]. exact (HB Hq h1 h2 c K1 K2 Hd).
Qed.
End ClientJ.

Section Server.
Variable E : Env.
Variable os : list Output.
Variable lev : N.
Notation q := true.
Definition RY (a b : Server13) : Prop := LI E q lev os (xs_eng a) -> LI E q lev os (xs_eng b).
Lemma RY_po : preorder RY.
Proof. split; unfold RY; auto. Qed.
Lemma RY_eng {A} (m : M Eng13 A) : pres (RI E q lev os) m -> pres RY (yeng m).
Proof. intros H. apply (pres_zoom _ (RI E q lev os)); [intros s t K; exact K|exact H]. Qed.
Ltac smod := apply pres_modify; intros ? K; exact K.
Ltac sx := first [smod | lazymatch goal with |- pres _ (yeng _) => apply RY_eng; eop end].

Lemma y_ch : lev = 0 -> pres RY (y_await_client_hello E).
Proof.
  intros Hl.
  assert (P1 : forall a b c, pres RY (y_select E a b c)).
  { intros. unfold y_select, cookie13, y_retry, send_hello_retry, y_accept_hello. presauto RY_po sx. }
  unfold y_await_client_hello.
  apply (pres_bind _ RY_po); [apply (pres_get _ RY_po)|]. intros s.
  apply (pres_bind _ RY_po); [apply RY_eng; destruct (xs_auto s); eop|]. intros o.
  presauto RY_po ltac:(first [apply P1|sx]).
Qed.
Lemma y_low st : lev = 1 ->
  match st with ST_SendEncryptedExtensions | ST_SendCertificateRequest | ST_SendCertificate
  | ST_SendCertificateVerify | ST_SendFinished => True | _ => False end ->
  pres RY (y_step E st).
Proof.
  intros Hl Hs. destruct st; try contradiction; cbn [y_step];
    unfold y_send_encrypted_extensions, y_send_certificate_request, y_send_certificate, y_send_certificate_verify, y_send_finished;
    presauto RY_po sx.
Qed.
Lemma y_mid st : lev = 2 ->
  match st with ST_AwaitCertificate | ST_AwaitCertificateVerify | ST_AwaitFinished => True | _ => False end ->
  pres RY (y_step E st).
Proof.
  intros Hl Hs. destruct st; try contradiction; cbn [y_step];
    unfold y_await_certificate, y_await_certificate_verify, y_await_finished;
    presauto RY_po sx.
Qed.
Lemma y_drain ds : 3 <= lev -> forall c, LI E q lev os (xs_eng c) ->
  LI E q lev os (xs_eng (snd (iterM (fun d => yeng (create_cipher13 E CT_APP (g_epoch (xs_eng c)) false d)) ds c))).
Proof.
  intros Hl c H.
  pose proof (pres_iterM (fun a b => g_epoch (xs_eng a) = g_epoch (xs_eng c) /\ LI E q lev os (xs_eng a) ->
     g_epoch (xs_eng b) = g_epoch (xs_eng c) /\ LI E q lev os (xs_eng b))) as P.
  specialize (P ltac:(split; auto)). specialize (P _ (fun d => yeng (create_cipher13 E CT_APP (g_epoch (xs_eng c)) false d))).
  apply P; [|auto]. intros d. eapply pres_zoom; [|apply (LI_app_cipher E q lev os CT_APP d (g_epoch (xs_eng c)) Hl)].
  intros s t K. exact K.
Qed.
Lemma y_app : 3 <= lev -> pres RY (y_await_application_data E).
Proof.
  intros Hl. unfold y_await_application_data.
  apply (pres_bind _ RY_po); [sx|]. intros needs.
  apply (pres_bind _ RY_po); [apply (pres_get _ RY_po)|]. intros c0.
  apply (pres_bind _ RY_po); [presauto RY_po sx|]. intros _.
  intros c1 H1. unfold bind at 1, get. cbv beta iota. unfold bind at 1, modify. cbv beta iota.
  pose proof (y_drain (xs_queued c1) Hl (set_xs_queued [] c1) H1) as K.
  change (xs_eng (set_xs_queued [] c1)) with (xs_eng c1) in K. unfold bind at 1.
  destruct (iterM _ _ _) as [r c2]. cbn [snd] in K. destruct r as [u|x|n]; [|exact K..].
  revert K. revert c2. match goal with |- forall c2, _ -> LI _ _ _ _ (xs_eng (snd (?m c2))) => change (pres RY m) end.
  presauto RY_po sx.
Qed.
Lemma y_half : pres RY (y_half_closed_local E).
Proof. unfold y_half_closed_local. presauto RY_po sx. Qed.
End Server.

Definition s_level (s : Server13) (st : SState13) (lev : N) : Prop :=
  match st with
  | ST_AwaitClientHello => lev = 0
  | ST_SendServerHello => lev = 0 \/ (lev = 1 /\ xs_shared s = None)
  | ST_AwaitCertificate | ST_AwaitCertificateVerify | ST_AwaitFinished => lev = 2
  | ST_AwaitApplicationData | ST_HalfClosedLocal => lev = 3
  | ST_Closed => True
  | _ => lev = 1
  end.
Definition JS (E : Env) (os : list Output) (s : Server13) : Prop :=
  exists lev, s_level s (xs_state s) lev /\ LI E true lev os (xs_eng s).

Section ServerJ.
Variable E : Env.
Notation q := true.
Notation J := (JS E).

Lemma s_server_hello_step os c lev : lev = 0 \/ (lev = 1 /\ xs_shared c = None) -> LI E q lev os (xs_eng c) ->
  wp (y_send_server_hello E) (fun r c' => match r with
    | Ok st => st = ST_SendEncryptedExtensions /\ LI E q 1 os (xs_eng c')
    | _ => (exists lev', (lev' = 0 \/ (lev' = 1 /\ xs_shared c' = None)) /\ LI E q lev' os (xs_eng c')) end) c.
Proof.
  intros Hl H. unfold y_send_server_hello. apply wp_bind, wp_get. destruct (xs_random c) as [random|]; [|exists lev; auto].
  cbv zeta. destruct (len (xs_ext c) <? 10); [exists lev; auto|]. apply wp_bind, wp_modify.
  set (c1 := set_xs_ext _ c). assert (H1 : LI E q lev os (xs_eng c1) /\ xs_shared c1 = xs_shared c) by (split; [exact H|reflexivity]).
  clearbody c1. destruct H1 as [H1 S1]. clear H.
  apply wp_bind. apply wp_mono with (P := fun _ c' => LI E q lev os (xs_eng c') /\ xs_shared c' = xs_shared c).
  { split; [apply (RY_eng E os lev _ (LI_flight_begin E q lev os)), H1|]. unfold yeng, zoom. destruct (flight_begin13 E _). exact S1. }
  clear c1 H1 S1. intros r c1 [H1 S1]. destruct r as [u|x|n]; [|exists lev; rewrite S1; auto..].
  apply wp_bind. apply wp_mono with (P := fun _ c' => LI E q lev os (xs_eng c') /\ xs_shared c' = xs_shared c).
  { split.
    - refine (RY_eng E os lev _ _ c1 H1). apply LI_create_hs. unfold create_server_hello13.
      presauto (RI_po E q lev os) idtac.
    - unfold yeng, zoom. destruct (create_handshake13 _ _ _ _). exact S1. }
  clear c1 H1 S1. intros r c1 [H1 S1]. destruct r as [v|x|n]; [|exists lev; rewrite S1; auto..].
  apply wp_bind, wp_of_opt. destruct (xs_shared c) as [shared|] eqn:Hsh; [|exists lev; rewrite S1; auto].
  destruct Hl as [->|[_ Hl]]; [|discriminate]. clear S1.
  apply wp_bind, wp_modify. set (c2 := set_xs_shared None c1).
  assert (H2 : LI E q 0 os (xs_eng c2) /\ xs_shared c2 = None) by (split; [exact H1|reflexivity]). clearbody c2. destruct H2 as [H2 S2].
  apply wp_bind. apply wp_mono with (P := fun _ c' => LI E q 0 os (xs_eng c') /\ xs_shared c' = None).
  { split; [apply (RY_eng E os 0 _ (op_derive_hs E _ (RI_po E q 0 os) shared)), H2|].
    unfold yeng, zoom. destruct (derive_handshake_secrets _ _ _). exact S2. }
  clear c1 H1 c2 H2 S2. intros r c2 [H2 S2]. destruct r as [sec|x|n]; [|exists 0; auto..].
  apply wp_bind, wp_modify, wp_bind, wp_modify, wp_bind, wp_modify.
  set (c3 := set_xs_chs _ _). assert (H3 : LI E q 0 os (xs_eng c3) /\ xs_shared c3 = None) by (split; [exact H2|exact S2]).
  clearbody c3. destruct H3 as [H3 S3].
  apply wp_bind, wp_zoom. eapply wp_mono; [apply LI_install_hs; [|exact H3]|].
  { right. destruct H3 as (rss & L). apply L; reflexivity. }
  intros r e' K. destruct r as [w|x|n].
  - apply wp_ret. split; [reflexivity|apply K].
  - destruct K as [K|[K _]]; [exists 0|exists 1]; auto.
  - destruct K as [K|[K _]]; [exists 0|exists 1]; auto.
Qed.
Lemma y_next st : match st with ST_SendServerHello => False | _ => True end ->
  rets (fun st' => match st' with
                | ST_AwaitClientHello => st = ST_AwaitClientHello
                | ST_SendServerHello => st = ST_AwaitClientHello
                | ST_AwaitCertificate | ST_AwaitCertificateVerify | ST_AwaitFinished =>
                    st = ST_SendFinished \/ st = ST_AwaitCertificate \/ st = ST_AwaitCertificateVerify \/ st = ST_AwaitFinished
                | ST_AwaitApplicationData => st = ST_AwaitFinished \/ st = ST_AwaitApplicationData
                | ST_HalfClosedLocal => st = ST_HalfClosedLocal
                | ST_Closed => st = ST_HalfClosedLocal \/ st = ST_Closed
                | _ => st = ST_SendEncryptedExtensions \/ st = ST_SendCertificateRequest \/ st = ST_SendCertificate \/
                       st = ST_SendCertificateVerify end) (y_step E st).
Proof.
  intros Hs.
  destruct st; try contradiction; cbn [y_step];
    unfold y_await_client_hello, y_select, cookie13, y_retry, send_hello_retry, y_accept_hello,
      y_send_encrypted_extensions, y_send_certificate_request, y_send_certificate, y_send_certificate_verify, y_send_finished,
      y_await_certificate, y_await_certificate_verify, y_await_finished, y_await_application_data, y_half_closed_local;
    rets ltac:(repeat match goal with |- context [if ?b then _ else _] => destruct b end; solve [auto 8]).
Qed.
Lemma y_rest os c st lev : st <> ST_SendServerHello -> s_level c st lev -> pres (RY E os lev) (y_step E st).
Proof.
  intros Hs Hl. destruct st; try congruence; cbn [s_level] in Hl;
    first [apply y_ch; exact Hl|apply y_low; [exact Hl|exact I]|apply y_mid; [exact Hl|exact I]|apply y_app; lia|apply y_half|apply pres_ret, RY_po].
Qed.
Lemma js_step os c r c' : J os c -> y_step E (xs_state c) c = (r, c') ->
  match r with Ok st => J os (set_xs_state st c') | _ => J os c' end.
Proof.
  intros (lev & Hl & H) Hs. pose proof (y_step_state E (xs_state c) c) as Hst. rewrite Hs in Hst. cbn [snd] in Hst.
  destruct (sstate13_eqb (xs_state c) ST_SendServerHello) eqn:D.
  - assert (D' : xs_state c = ST_SendServerHello) by (destruct (xs_state c); try discriminate; reflexivity).
    rewrite D' in *. cbn [s_level y_step] in *. pose proof (s_server_hello_step os c lev Hl H) as K. unfold wp in K.
    rewrite Hs in K. cbn [fst snd] in K. destruct r as [st|x|n].
    + destruct K as [-> K]. exists 1. split; [reflexivity|exact K].
    + destruct K as (lev' & K1 & K2). exists lev'. rewrite <- Hst. split; assumption.
    + destruct K as (lev' & K1 & K2). exists lev'. rewrite <- Hst. split; assumption.
  - assert (D1 : xs_state c <> ST_SendServerHello) by (intro X; rewrite X in D; discriminate).
    assert (D2 : match xs_state c with ST_SendServerHello => False | _ => True end) by (destruct (xs_state c); congruence || exact I).
    pose proof (y_rest os c _ lev D1 Hl c H) as K. pose proof (y_next _ D2 c) as R. rewrite Hs in K, R. cbn [fst snd] in K, R.
    assert (Hf : J os c').
    { exists lev. rewrite <- Hst. split; [|exact K]. destruct (xs_state c); try congruence; exact Hl. }
    destruct r as [st|x|n]; [|exact Hf..].
    unfold JS. cbn [xs_state set_xs_state xs_eng]. clear D D2 Hf Hst Hs.
    destruct st; cbn [s_level]; repeat match type of R with _ \/ _ => destruct R as [R|R] end; rewrite R in *; cbn [s_level] in *;
      first [ exists lev; split; [first [exact Hl|left; exact Hl|exact Logic.I]|exact K]
            | exists 2; split; [reflexivity|]; apply (LI_weaken E q lev); [lia|exact K]
            | exists 3; split; [reflexivity|]; apply (LI_weaken E q lev); [lia|exact K] ].
Qed.
Lemma js_poll cap os c r c' : J os c -> server13_poll_output cap c = (r, c') -> J (os ++ out_of r) c'.
Proof.
  intros (lev & Hl & H) Hp. exists lev. unfold server13_poll_output in Hp. unfold bind, get in Hp.
  destruct (xs_events c) as [|ev evs].
  - unfold yeng, zoom in Hp. destruct (eng13_poll_output cap (xs_now c) (xs_eng c)) as [r1 e1] eqn:He.
    injection Hp as <- <-. split; [exact Hl|]. eapply LI_poll; eassumption.
  - unfold modify in Hp. apply event_no_packet in Hp. destruct Hp as [-> Hd]. split; [exact Hl|]. apply LI_quiet; assumption.
Qed.
Lemma js_eng {A} (m : M Eng13 A) os c : (forall lev, pres (RI E q lev os) m) -> J os c -> J os (snd (yeng m c)).
Proof.
  intros Hm (lev & Hl & H). exists lev. pose proof (Hm lev (xs_eng c) H) as K. unfold yeng, zoom.
  destruct (m (xs_eng c)) as [r e]. split; [exact Hl|exact K].
Qed.
Lemma js_send d os c : J os c -> J os (snd (server13_send E d c)).
Proof.
  intros (lev & Hl & H). unfold server13_send. unfold bind, get.
  destruct (xs_state c) eqn:Hc; try (exists lev; rewrite <- Hc in Hl; split; [exact Hl|exact H]).
  cbn [s_level] in Hl. exists lev. unfold yeng, zoom.
  pose proof (LI_app_send E q lev os CT_APP d (xs_eng c) ltac:(lia) H) as K.
  destruct (create_cipher13 _ _ _ _ _ _) as [r e]. cbn [snd xs_state set_xs_eng xs_eng] in *. rewrite Hc. split; [exact Hl|exact K].
Qed.
Lemma js_close os c : J os c -> J os (snd (server13_close E c)).
Proof.
  intros (lev & Hl & H). unfold server13_close. unfold bind at 1, get.
  destruct (xs_state c) eqn:Hc; try (exists lev; cbn [ret snd]; rewrite Hc; split; [exact Hl|exact H]);
    try (exists lev; unfold bind, yeng, zoom, eng13_abort, modify; cbn [snd]; split; [exact Logic.I|];
      apply (LI_abort E q lev os ltac:(cbn [s_level] in Hl; lia) (xs_eng c) H)).
  cbn [s_level] in Hl. unfold bind, yeng, zoom.
  pose proof (LI_app_send E q lev os CT_ALERT [1; 0] (xs_eng c) ltac:(lia) H) as K.
  destruct (create_cipher13 _ _ _ _ _ _) as [r e]. cbn [snd] in K. destruct r as [u|x|n].
  - unfold cancel_flights, modify. cbn [snd]. exists lev. split; [exact Hl|]. apply (LI_cancel E q lev os e K).
  - exists lev. cbn [snd xs_state set_xs_eng]. rewrite Hc. split; [exact Hl|exact K].
  - exists lev. cbn [snd xs_state set_xs_eng]. rewrite Hc. split; [exact Hl|exact K].
Qed.
Lemma js_tick now os c : J os c -> J os (draw_random13s E (set_xs_now now c)).
Proof.
  intros (lev & Hl & H). exists lev. unfold draw_random13s. cbn [xs_random set_xs_now].
  destruct (xs_random c); (split; [exact Hl|]); [exact H|]. refine (LI_frame _ _ _ _ _ _ _ _ _ _ _ _ _ _ _ _ H); reflexivity.
Qed.
Lemma server_ledger c0 h s : J [] c0 -> history13 E (XS c0) h s -> exists c, s = XS c /\ J (outputs h) c.
Proof.
  intros H0. apply (bo_history E J).
  - intros p os c. apply js_eng. intros lev. apply LI_parse.
  - exact js_tick.
  - intros now os c. apply js_eng. intros lev. apply LI_timeout.
  - intros v os c K. exact K.
  - intros v os c K. exact K.
  - exact js_step.
  - exact js_poll.
  - exact js_send.
  - exact js_close.
  - exact H0.
Qed.
End ServerJ.

(** From a new endpoint. *)
Lemma LI_start E q lev e : g_tx e = [] -> g_prev e = None -> g_hs_send e = None -> g_inflight e = false -> g_epoch e = 3 ->
  g_saved e = [] -> LI E q lev [] e.
Proof.
  intros H1 H2 H3 H4 H5 H6. exists []. constructor.
  - rewrite H1. reflexivity.
  - constructor.
  - exact H2.
  - auto.
  - auto.
  - rewrite H6. constructor.
  - rewrite H4, H5. intros _. split; [apply N.leb_le; reflexivity|apply N.leb_le; reflexivity].
  - split; constructor.
Qed.
Lemma tick_reply E now c c' : client13_handle_timeout E now c = (Ok tt, c') -> client13_call E (Tick now) c = (Ok None, c').
Proof. intros H. cbn [client13_call]. unfold no_output, bind. rewrite H. reflexivity. Qed.
Theorem ledger13 E cfg cert key s0 h s q : start13 E cfg cert key s0 -> history13 E s0 h s ->
  (q = true -> forall h1 h2 c, h = h1 ++ h2 -> history13 E s0 h1 (XC c) -> ~ half_done c) ->
  exists q' lev, (q = true -> q' = true) /\ (match s with XS _ => q' = true | XC _ => q' = q end) /\ LI E q' lev (outputs h) (end13_eng s).
Proof.
  intros H0 H HB. destruct s0 as [c0|c0].
  - assert (J0 : JC E q [] c0).
    { inversion H0 as [? K|random fragment kx now ? K]; subst.
      - destruct (fresh13_eng _ _ _ _ _ K) as (F & now & ->). exists 0. split; [reflexivity|].
        destruct F as (b & n & F). cbn [end13_eng client13_new xc_eng] in *. rewrite F. apply LI_start; reflexivity.
      - rewrite from_hybrid in K. 
        assert (Jh : JC E q [] (hybrid_client E cfg cert key random fragment kx now)).
        { exists 0. split; [reflexivity|]. apply LI_start; reflexivity. }
        pose proof (ao_call E (JC E q) (BC q)) as P.
        specialize (P (fun p os c => jc_eng E q _ os c (fun lev => LI_parse E q lev os p)) (jc_tick E q)
          (fun now os c => jc_eng E q _ os c (fun lev => LI_timeout E q lev os now)) (jc_step E q) (jc_poll E q) (jc_send E q) (jc_close E q)).
        destruct (P (Tick now) [] _ _ _ Jh (tick_reply _ _ _ _ K)) as [Q|[Hq Hd]]; [exact Q|].
        exfalso. apply (HB Hq [] h c0); [reflexivity|constructor|exact Hd]. }
    destruct (client_ledger E q c0 h s J0 HB H) as (c & -> & lev & Hl & L). exists q, lev. auto.
  - assert (J0 : JS E [] c0).
    { inversion H0 as [? K|random fragment kx now ? K]; subst.
      destruct (fresh13_eng _ _ _ _ _ K) as (F & now & auto & e & ->). exists 0. split; [reflexivity|].
      destruct F as (b & n & F). cbn [end13_eng] in F. rewrite F. apply LI_start; reflexivity. }
    destruct (server_ledger E c0 h s J0 H) as (c & -> & lev & Hl & L). exists true, lev. auto.
Qed.
