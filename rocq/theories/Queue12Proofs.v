(** Bounds on the queues of the DTLS 1.2 engine. *)
From Verif Require Import Prelude PreludeFacts Types Codec Codec12 Record12 Monad MonadFacts Timer Env
  Config Aead Prf Window Context12 Engine12 Client12 Server12 Engine12Frame Send12Proofs History12
  History12Facts.

Definition qbound (s : Eng12) : Prop :=
  len (en_rx s) <= c_max_rx (en_cfg s) /\ len (en_tx s) <= c_max_tx (en_cfg s).
Definition Rq (a b : Eng12) : Prop := en_cfg a = en_cfg b /\ (qbound a -> qbound b).

Lemma Rq_po : preorder Rq.
Proof. unfold Rq. split; [auto|]. intros a b c [H1 H2] [H3 H4]. split; [congruence|auto]. Qed.

Lemma len_app' {A} (a b : list A) : len (a ++ b) = len a + len b.
Proof. unfold len. rewrite app_length. lia. Qed.
Lemma len_append_last d q : q <> [] -> len (append_last d q) = len q.
Proof.
  intros H. unfold append_last, len. destruct (rev q) as [|b r] eqn:Hr.
  - apply (f_equal (@rev _)) in Hr. rewrite rev_involutive in Hr. contradiction.
  - apply (f_equal (@length _)) in Hr. rewrite rev_length in Hr. rewrite Hr. rewrite app_length, rev_length.
    cbn. lia.
Qed.

Lemma can_append_nonnil s fn w : can_append s fn w = true -> en_tx s <> [].
Proof.
  unfold can_append. destruct (en_tx s) eqn:H; [discriminate|congruence].
Qed.

Lemma q_cri E ct ep save fn f : pres Rq (create_record_inner E ct ep save fn f).
Proof.
  intro s. apply (wp_mono _ _ (fun _ s' => Rq s s') s (create_record_spec E ct ep save fn f s)).
  intros r s' (o & sv & H). destruct r as [u|e|n].
  - destruct H as (_ & _ & frag & _ & Ha & ->). split.
    + unfold bump. destruct (ep =? 0); reflexivity.
    + intros [Hr Ht]. unfold qbound.
      set (app := can_append _ _ _) in *.
      replace (en_rx _) with (en_rx s) by (unfold bump; destruct (ep =? 0); reflexivity).
      replace (en_cfg _) with (en_cfg s) by (unfold bump; destruct (ep =? 0); reflexivity).
      split; [exact Hr|]. cbn [en_tx set_en_tx].
      destruct app eqn:Hap.
      * rewrite len_append_last; [exact Ht|]. eapply can_append_nonnil. exact Hap.
      * specialize (Ha eq_refl). rewrite len_app'. change (len [_]) with 1. lia.
  - destruct H as (_ & -> & _). split; [reflexivity|exact (fun H => H)].
  - destruct H as (_ & -> & _). split; [reflexivity|exact (fun H => H)].
Qed.

Ltac qtriv := intros; split; [reflexivity|exact (fun H => H)].
Ltac qpre := first [exact Rq_po | apply q_cri | qtriv | idtac].

Lemma q_tx_nil s : Rq s (set_en_tx [] s).
Proof. split; [reflexivity|]. intros [H1 H2]. split; [exact H1|]. apply N.le_0_l. Qed.

Lemma q_flight_resend E : pres Rq (flight_resend E).
Proof. apply fr2_flight_resend; qpre. apply q_tx_nil. Qed.

(** [pres] for an operation that does not change the receive queue. *)
Lemma rx_flight_resend E : pres (fun a b => en_rx a = en_rx b) (flight_resend E).
Proof. apply fr_flight_resend; try reflexivity. apply preorder_eq. Qed.

Lemma len_insert_at {A} i (x : A) l : len (insert_at i x l) = len l + 1.
Proof.
  unfold insert_at, len. rewrite app_length. cbn [length].
  rewrite <- (firstn_skipn i l) at 3. rewrite app_length. lia.
Qed.

Lemma q_insert E inc : pres Rq (insert_incoming E inc).
Proof.
  apply pres_wp. intro s. unfold insert_incoming.
  apply wp_bind, wp_get. destruct (c_max_rx (en_cfg s) <=? len (en_rx s)) eqn:Hm.
  { wps. apply Rq_po. }
  assert (Hlt : len (en_rx s) < c_max_rx (en_cfg s)) by lia. clear Hm.
  destruct inc as [|r inc]; [wps; apply Rq_po|].
  assert (Hins : forall i x s1, Rq s s1 -> en_rx s1 = en_rx s -> Rq s (set_en_rx (insert_at i x (en_rx s1)) s1)).
  { intros i x s1 [Hc Hq] Hrx. split; [exact Hc|]. intros H. destruct (Hq H) as [H1 H2].
    split; [|exact H2]. cbn [en_rx en_cfg set_en_rx]. rewrite len_insert_at, Hrx, <- Hc. lia. }
  destruct (first_hs r) as [h|].
  - unfold insert_incoming_handshake. apply wp_bind, wp_get. apply wp_bind.
    apply wp_mono with (P := fun _ s1 => Rq s s1 /\ en_rx s1 = en_rx s).
    { destruct (first_some _ _) as [d|]; [|wps; split; [apply Rq_po|reflexivity]].
      apply wp_when; intros _; [|split; [apply Rq_po|reflexivity]].
      split; [apply q_flight_resend|symmetry; apply rx_flight_resend]. }
    intros r0 s1 [H1 H2]. destruct r0 as [u|e|n]; [|exact H1|exact H1].
    unfold bsearch, draw. wps; try exact H1; auto.
  - unfold insert_incoming_non_handshake, bsearch, draw. wps; try apply Rq_po; try qtriv.
    all: cbn [en_rx set_en_orc]; try qtriv.
    apply (Hins _ _ (set_en_orc (en_orc s + 1) s)); [qtriv|reflexivity].
Qed.

Lemma q_parse E p : pres Rq (eng12_parse_packet E p).
Proof.
  unfold eng12_parse_packet.
  presauto Rq_po ltac:(first [apply q_insert | apply fr_records_parse; qpre]).
Qed.

Lemma Rq_rx_le s v : len v <= len (en_rx s) -> Rq s (set_en_rx v s).
Proof. intros H. split; [reflexivity|]. intros [H1 H2]. split; [|exact H2]. cbn. lia. Qed.

Lemma len_map {A B} (f : A -> B) l : len (map f l) = len l.
Proof. unfold len. rewrite map_length. reflexivity. Qed.

Lemma map_acc_length {S A} (f : S -> A -> A * S) l : forall st,
  length (fst (map_acc f st l)) = length l.
Proof.
  induction l as [|x l IH]; intro st; cbn [map_acc]; [reflexivity|].
  destruct (f st x) as [x' st']. specialize (IH st'). destruct (map_acc f st' l) as [r st''].
  cbn in *. congruence.
Qed.
Lemma len_mark_first f q : len (mark_first f q) = len q.
Proof. unfold mark_first, len. rewrite map_acc_length. reflexivity. Qed.
Lemma len_mark_run q : len (mark_run q) = len q.
Proof. unfold mark_run, len. rewrite map_acc_length. reflexivity. Qed.
Lemma len_skip_while {A} (f : A -> bool) l : len (skip_while f l) <= len l.
Proof.
  induction l as [|x l IH]; cbn [skip_while]; [lia|]. destruct (f x); [|lia].
  etransitivity; [exact IH|]. unfold len. cbn [length]. lia.
Qed.

Ltac qrx :=
  apply pres_modify; intro; apply Rq_rx_le;
  first [rewrite len_mark_run | rewrite len_mark_first | rewrite len_map | apply len_skip_while | idtac];
  try apply N.le_refl; try apply N.le_0_l.

Lemma q_next_handshake w : pres Rq (next_handshake w).
Proof.
  unfold next_handshake.
  presauto Rq_po ltac:(first [qrx; fail | apply pres_modify; qtriv]); qrx.
Qed.
Lemma q_next_record w : pres Rq (next_record w).
Proof. unfold next_record. presauto Rq_po qrx. Qed.
Lemma q_drop_ccs : pres Rq drop_pending_ccs.
Proof. unfold drop_pending_ccs. qrx. Qed.

Lemma split_epoch1_len q : len (fst (split_epoch1 q)) <= len q.
Proof.
  induction q as [|inc q IH]; cbn [split_epoch1]; [apply N.le_refl|]. destruct (existsb _ _); [apply N.le_0_l|].
  destruct (split_epoch1 q) as [a b]. cbn [fst] in *. unfold len in *. cbn [length]. lia.
Qed.

Lemma q_enable_peer E : pres Rq (enable_peer_encryption E).
Proof.
  intro s. unfold enable_peer_encryption.
  apply (wp_bind (modify (set_en_penc true)) _ (fun _ s' => Rq s s')). wps.
  apply wp_mono with (P := fun _ s' => Rq (set_en_rx l (set_en_penc true s)) s').
  { pose proof (pres_iterM Rq Rq_po (fun r => eng12_parse_packet E (r_buf r))
      (filter (fun r => negb (rec_handled r)) (concat l0)) (fun a => q_parse E _)) as H. apply H. }
  intros r s' H. eapply Rq_po; [|exact H].
  eapply Rq_po; [|apply Rq_rx_le]; [qtriv|].
  pose proof (split_epoch1_len (en_rx s)) as Hl. change (en_rx (set_en_penc true s)) with (en_rx s) in *.
  rewrite Heqp in Hl. exact Hl.
Qed.

Lemma Rq_tx_tl s b l : en_tx s = b :: l -> Rq s (set_en_tx l s).
Proof.
  intros H. split; [reflexivity|]. intros [Ha Hb]. split; [exact Ha|].
  change (len l <= c_max_tx (en_cfg s)). rewrite H in Hb. unfold len in *. cbn [length] in Hb. lia.
Qed.

Lemma q_poll cap now : pres Rq (eng12_poll_output cap now).
Proof.
  intro s. unfold eng12_poll_output, poll_app_data, poll_packet_tx.
  apply (wp_bind _ _ (fun _ s' => Rq s s')). apply wp_modify.
  assert (H1 : Rq s (set_en_rx (purge_handled (en_rx s)) s)).
  { apply Rq_rx_le, len_skip_while. }
  set (s1 := set_en_rx _ s) in *.
  wps; try exact H1.
  all: eapply Rq_po; [exact H1|].
  all: first [ qtriv | eapply Rq_tx_tl; eassumption | apply Rq_rx_le; rewrite len_mark_first; apply N.le_refl ].
Qed.

Lemma q_frame E : eng_frame E Rq.
Proof.
  constructor; [constructor; [exact Rq_po|..]|..].
  all: first
    [ solve [qtriv] | exact (q_cri _) | exact (fun ct ep save f => q_cri E ct ep save false f)
    | exact q_next_handshake | exact q_next_record | exact q_drop_ccs | exact (q_enable_peer E)
    | exact (q_parse E) | exact q_poll
    | apply fr_flight_begin; solve [qpre]
    | intros; apply fr2_create_handshake; solve [qpre; assumption]
    | apply fr_reset_client; solve [qpre] | intro; apply fr_set_suite; solve [qpre]
    | apply fr_flight_stop; solve [qpre] | apply fr_release; solve [qpre]
    | intro; apply fr2_handle_timeout; solve [qpre; apply q_tx_nil]
    | idtac ].
  - unfold reset_server_for_hvr. apply pres_modify. intro s.
    eapply Rq_po; [|apply Rq_rx_le, N.le_0_l]. qtriv.
  - unfold discard_pending_writes. apply pres_modify, q_tx_nil.
  - unfold eng12_abort. apply pres_modify. intro s.
    eapply Rq_po; [apply q_tx_nil|]. qtriv.
Qed.

Lemma queues_bounded E cfg auth h s : reach12 E cfg auth h s ->
  len (en_rx (end_eng s)) <= c_max_rx cfg /\ len (en_tx (end_eng s)) <= c_max_tx cfg.
Proof.
  intros H. destruct (lf_reach E Rq (q_frame E) _ _ _ _ H) as [Hc Hq].
  unfold qbound in Hq. rewrite <- Hc in Hq. apply Hq. split; apply N.le_0_l.
Qed.
