(** Invariants of the records in the receive queue of the DTLS 1.3 engine. *)
From Verif Require Import Prelude PreludeFacts Types Codec Codec12 Codec13 Record12 Record13 Monad MonadFacts Timer
  Env Config Aead Prf Window SeqRecon Engine12 Rx12Proofs Queue12Proofs Client12 Engine13 Client13 Server13 Frame13
  History12 History13 Lift13 Send13Proofs.

Lemma hd_firstn {A} (d : A) n l : (1 <= n)%nat -> hd d (firstn n l) = hd d l.
Proof. destruct n; [lia|]. destruct l; reflexivity. Qed.

Lemma BRec_inj a b : BRec a = BRec b -> a = b.
Proof. congruence. Qed.

(** The bytes of one record are one record. *)
Lemma bound_cut p e : rec_bound13 p = BRec e ->
  rec_bound13 (firstn e p) = BRec (length (firstn e p)) /\ (e <= length p)%nat /\ (2 <= e)%nat /\
  length (firstn e p) = e.
Proof.
  unfold rec_bound13. intros H. assert (K : (2 <= e)%nat /\ (e <= length p)%nat).
  { destruct (is_ct_header _).
    - destruct (flag_c _); [discriminate|]. destruct (Nat.ltb _ 2) eqn:H1; [discriminate|].
      destruct (Nat.ltb _ (uhdr_len _)) eqn:H2; [discriminate|].
      destruct (Nat.ltb _ _) eqn:H3 in H; [discriminate|]. apply BRec_inj in H; subst e.
      apply Nat.ltb_ge in H1, H2, H3. split; [|exact H3].
      destruct (flag_l _); [unfold uhdr_len, seq_len; destruct (flag_s _)|]; lia.
    - destruct (Nat.ltb _ 13) eqn:H1; [discriminate|]. destruct (Nat.ltb _ _) eqn:H3 in H; [discriminate|].
      apply BRec_inj in H; subst e. apply Nat.ltb_ge in H1, H3. split; [|exact H3]. clear. generalize (N.to_nat (unbe (firstn 2 (skipn 11 p)))). intro n. cbn. lia. }
  destruct K as [K1 K2]. assert (Hl : length (firstn e p) = e) by (apply firstn_length_le, K2).
  split; [|auto]. rewrite hd_firstn, Hl by lia.
  destruct (is_ct_header _).
  - destruct (flag_c _); [discriminate|]. destruct (Nat.ltb (length p) 2) eqn:H1; [discriminate|].
    replace (Nat.ltb e 2) with false by (symmetry; apply Nat.ltb_ge; lia).
    destruct (Nat.ltb _ (uhdr_len _)) eqn:H2; [discriminate|].
    apply Nat.ltb_ge in H1, H2.
    destruct (flag_l _) eqn:Hf.
    + destruct (Nat.ltb _ _) eqn:H3 in H; [discriminate|]. apply BRec_inj in H; rename H into He.
      assert (Hu : (uhdr_len (hd 0%N p) <= e)%nat) by (rewrite <- He; apply Nat.le_add_r).
      replace (Nat.ltb e (uhdr_len _)) with false by (symmetry; apply Nat.ltb_ge; exact Hu).
      rewrite skipn_firstn_comm, firstn_firstn.
      replace (Nat.min 2 _) with 2%nat by (clear He; unfold uhdr_len, len_len in Hu; rewrite Hf in Hu; lia).
      rewrite He. replace (Nat.ltb e e) with false by (symmetry; apply Nat.ltb_ge; lia). reflexivity.
    + destruct (Nat.ltb _ _) eqn:H3 in H; [discriminate|]. apply BRec_inj in H; rename H into He.
      replace (Nat.ltb e (uhdr_len _)) with false by (symmetry; apply Nat.ltb_ge; lia).
      replace (Nat.ltb e e) with false by (symmetry; apply Nat.ltb_ge; lia). reflexivity.
  - destruct (Nat.ltb _ 13) eqn:H1; [discriminate|]. destruct (Nat.ltb _ _) eqn:H3 in H; [discriminate|].
    apply BRec_inj in H; rename H into He. apply Nat.ltb_ge in H1, H3.
    assert (Hu : (13 <= e)%nat) by (rewrite <- He; apply (Nat.le_add_r 13)).
    replace (Nat.ltb e 13) with false by (symmetry; apply Nat.ltb_ge; exact Hu).
    rewrite skipn_firstn_comm, firstn_firstn.
    replace (Nat.min 2 _) with 2%nat by (clear He; lia). rewrite He.
    replace (Nat.ltb e e) with false by (symmetry; apply Nat.ltb_ge; lia). reflexivity.
Qed.

Section RxInv.
Variable E : Env.
Variable P : Rec12 -> Prop.
Hypothesis P_handled : forall r, P r -> P (set_r_handled true r).
Hypothesis P_frags : forall r st, P r -> P (fst (mark_rec_frags st r)).
Hypothesis P_parse : forall raw s, rec_bound13 raw = BRec (length raw) ->
  wp (rec_parse13 E raw) (fun o _ => match o with Ok (Some r) => P r | _ => True end) s.

Definition Qok13 (s : Eng13) : Prop := Forall (Forall P) (g_rx s).
Definition Rrx13 (a b : Eng13) : Prop := Qok13 a -> Qok13 b.
Lemma Rrx13_po : preorder Rrx13.
Proof. apply preorder_inv. Qed.

Ltac rtriv := intros; exact (fun H => H).

Lemma rx13_parse_loop fuel : forall room p s, wp (parse_loop13 E fuel room p) (fun r _ =>
  match r with Ok rs => Forall P rs | _ => True end) s.
Proof.
  induction fuel as [|fuel IH]; intros room p s; cbn [parse_loop13]; destruct p as [|b p];
    try (wps; first [exact I|constructor]; fail).
  destruct (rec_bound13 (b :: p)) as [| |e] eqn:He; [wps; constructor|wps; exact I|].
  apply wp_bind. eapply wp_mono; [apply P_parse, (bound_cut _ _ He)|]. cbv beta.
  intros [[r|]|x|n] s' Hr; auto.
  destruct room as [|room]; [wps; exact I|].
  apply wp_bind. wpuse IH. intros [rs|x|n] s'' Hrs; auto. wps. constructor; assumption.
Qed.

Lemma rx13_classify r s : P r -> wp (classify_record13 E r) (fun o _ =>
  match o with Ok (Some r) => P r | _ => True end) s.
Proof.
  intros H. unfold classify_record13. apply wp_bind, wp_get.
  destruct (match g_cn s with Some _ => _ | None => _ end); [exact I|].
  destruct (_ && _); [exact I|]. destruct (_ =? _).
  { apply wp_bind. eapply wp_mono with (P := fun _ _ => True); [exact I|].
    intros [u|x|n] s' _; try exact I. }
  destruct (_ =? _); [|destruct (_ =? _); [exact I|exact H]].
  wps; exact I.
Qed.

Lemma rx13_classify_all rs : Forall P rs -> forall s, wp (classify_all13 E rs) (fun o _ =>
  match o with Ok rs => Forall P rs | _ => True end) s.
Proof.
  induction 1 as [|r rs Hr Hrs IH]; intro s; cbn [classify_all13]; [wps; constructor|].
  apply wp_bind. wpuse (rx13_classify r s Hr). intros [o|e|n] s' Ho; auto.
  apply wp_bind. wpuse IH. intros [rs'|e|n] s'' Hrs'; auto. wps.
  destruct o; [constructor|]; assumption.
Qed.

Lemma rx13_records_parse p s : wp (records_parse13 E p) (fun o _ =>
  match o with Ok rs => Forall P rs | _ => True end) s.
Proof.
  unfold records_parse13. apply wp_bind. wpuse rx13_parse_loop. intros [rs|e|n] s' H; auto.
  apply rx13_classify_all, H.
Qed.

Lemma Forall_set_nth {A} (Q : A -> Prop) i x l : Q x -> Forall Q l -> Forall Q (set_nth i x l).
Proof.
  intros Hx Hl. revert i. induction Hl as [|y l Hy Hl IH]; intros [|i]; cbn; constructor; auto.
Qed.

Lemma rx13_insert inc : Forall P inc -> pres Rrx13 (insert_incoming13 E inc).
Proof.
  intros Hi.
  assert (HF : pres Rrx13 (flight_resend13 E)).
  { eapply pres_mono; [|apply rx_flight_resend13]. intros a b H. unfold Rrx13, Qok13. rewrite H. auto. }
  unfold insert_incoming13, insert_handshake13, insert_non_handshake13, bsearch13, draw13.
  presauto Rrx13_po ltac:(first
    [ exact HF | apply pres_modify; intros s Hs; apply Forall_insert_at; [|exact Hs]
    | apply pres_modify; intros s Hs; apply Forall_set_nth; [|exact Hs]
    | apply pres_modify; intros s Hs; exact Hs ]); exact Hi.
Qed.

Lemma rx13_pp p : pres Rrx13 (eng13_parse_packet E p).
Proof.
  intro s. unfold eng13_parse_packet.
  apply (wp_bind _ _ (fun _ s' => Rrx13 s s')).
  assert (H1 : wp (records_parse13 E p) (fun _ s' => Rrx13 s s') s).
  { apply (wp_pres Rrx13). fr13 ltac:(first [exact Rrx13_po|rtriv]). }
  eapply wp_mono; [apply (wp_conj _ _ _ _ H1 (rx13_records_parse p s))|].
  intros [rs|e|n] s' [Ha Hb]; try exact Ha.
  destruct rs as [|r rs]; [exact Ha|].
  eapply wp_mono; [apply (wp_pres Rrx13), (rx13_insert (r :: rs) Hb)|]. intros r' s'' H. eapply Rrx13_po; eauto.
Qed.

Lemma Forall_filter {A} (Q : A -> Prop) f l : Forall Q l -> Forall Q (filter f l).
Proof. induction 1 as [|x l Hx Hl IH]; cbn; [constructor|]. destruct (f x); auto. Qed.

Ltac rxm := apply pres_modify; intros s0 H0; unfold Qok13 in *; cbn [g_rx set_g_rx set_g_transcript set_g_ackdl
   set_g_hs_seq set_g_tx set_g_cn_rep];
  first [exact H0 | apply (rx_mark_run P P_frags), H0 | apply (rx_mark_first P P_handled), H0
        | apply Forall_skip_while, H0 | apply Forall_filter, H0 ].

Lemma rx13_frame : eng_frame13 E Rrx13.
Proof.
  assert (P1 : forall a b w, pres Rrx13 (next_handshake13_gen a b w))
    by (intros; unfold next_handshake13_gen; presauto Rrx13_po rxm).
  assert (P2 : forall cap, pres Rrx13 (poll_app_data13 cap))
    by (intros; unfold poll_app_data13; presauto Rrx13_po rxm).
  assert (P4 : pres Rrx13 reset_for_hello_retry) by rxm.
  assert (P6 : pres Rrx13 (enable_peer_encryption13 E)).
  { intro s. unfold enable_peer_encryption13. apply (wp_bind (modify _) _ (fun _ s' => Rrx13 s s')), wp_modify, wp_bind, wp_get.
    pose proof (split_epoch2_app (g_rx (set_g_penc true s))) as K. destruct (split_epoch2 _) as [a b]. cbn [fst snd] in K.
    apply wp_bind, wp_modify. eapply wp_mono; [apply (wp_pres Rrx13), (pres_iterM _ Rrx13_po); intro; apply rx13_pp|].
    intros r0 s' H. eapply (po_trans _ Rrx13_po); [|exact H]. intros H1. unfold Qok13 in *.
    cbn in *. rewrite <- K in H1. apply Forall_app in H1. apply H1. }
  frame13_over
    ltac:(first [apply rx13_pp | apply P1 | apply P2 | apply P4 | apply P6])
    ltac:(first [exact Rrx13_po|rtriv|idtac]).
  intro H. apply Forall_skip_while, H.
Qed.

Lemma rx13_invariant cfg cert key h s : reach13 E cfg cert key h s -> Forall (Forall P) (g_rx (end13_eng s)).
Proof.
  intros H. destruct (eng13_from E _ cfg cert key rx13_frame h s H) as (e0 & H0 & Hq). apply Hq.
  destruct H0 as [(b & n & ->)|(f & ->)]; constructor.
Qed.
End RxInv.
