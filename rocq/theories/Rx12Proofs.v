(** Invariants of the records in the receive queue of the DTLS 1.2 engine. *)
From Verif Require Import Prelude PreludeFacts Types Codec Codec12 Record12 Monad MonadFacts Timer Env
  Config Aead Prf Window Context12 Engine12 Client12 Server12 Engine12Frame Send12Proofs History12
  History12Facts.

Lemma Forall_concat {A} (P : A -> Prop) l : Forall (Forall P) l <-> Forall P (concat l).
Proof.
  induction l as [|x l IH]; cbn; [split; constructor|]. rewrite Forall_app, Forall_cons_iff, IH.
  reflexivity.
Qed.

Lemma map_acc_Forall {S A} (P : A -> Prop) (f : S -> A -> A * S) l :
  (forall st x, P x -> P (fst (f st x))) -> Forall P l -> forall st, Forall P (fst (map_acc f st l)).
Proof.
  intros Hf. induction 1 as [|x l Hx Hl IH]; intro st; cbn [map_acc]; [constructor|].
  specialize (Hf st x Hx). destruct (f st x) as [x' st']. specialize (IH st').
  destruct (map_acc f st' l) as [r st'']. constructor; assumption.
Qed.

Lemma Forall_skip_while {A} (P : A -> Prop) f l : Forall P l -> Forall P (skip_while f l).
Proof.
  induction 1 as [|x l Hx Hl IH]; cbn [skip_while]; [constructor|]. destruct (f x); auto.
Qed.

Lemma Forall_insert_at {A} (P : A -> Prop) i x l : P x -> Forall P l -> Forall P (insert_at i x l).
Proof.
  intros Hx Hl. unfold insert_at. apply Forall_app. rewrite <- (firstn_skipn i l) in Hl.
  apply Forall_app in Hl. destruct Hl. split; [|constructor]; assumption.
Qed.

Lemma split_epoch1_app q : forall a b, split_epoch1 q = (a, b) -> q = a ++ b.
Proof.
  induction q as [|inc q IH]; cbn [split_epoch1]; intros a b; [intros [= <- <-]; reflexivity|].
  destruct (existsb _ _); [intros [= <- <-]; reflexivity|].
  destruct (split_epoch1 q) as [a' b']. intros [= <- <-]. cbn. f_equal. apply IH. reflexivity.
Qed.

Section RxInv.
Variable E : Env.
Variable P : Rec12 -> Prop.
Hypothesis P_handled : forall r, P r -> P (set_r_handled true r).
Hypothesis P_frags : forall r st, P r -> P (fst (mark_rec_frags st r)).
Hypothesis P_plain : forall r, P r -> P (mark_plain_hs r).
Hypothesis P_parsed : forall skip buf r, p_parsed12 skip buf = Some r -> P r.

Definition Qok (s : Eng12) : Prop := Forall (Forall P) (en_rx s).
Definition Rrx (a b : Eng12) : Prop := Qok a -> Qok b.
Lemma Rrx_po : preorder Rrx.
Proof. apply preorder_inv. Qed.

Ltac rtriv := intros; exact (fun H => H).
Ltac rpre := first [exact Rrx_po | rtriv | idtac].

Lemma rx_rec_parse raw s : wp (rec_parse E raw) (fun r _ =>
  match r with Ok (Some r) => P r | _ => True end) s.
Proof.
  unfold rec_parse, decryption_aad_and_nonce. destruct (p_parsed12 0 raw) as [r|] eqn:Hp; [|wps; exact I].
  wps; try exact I; eauto.
Qed.

Lemma rx_parse_loop fuel : forall room p s, wp (parse_loop E fuel room p) (fun r _ =>
  match r with Ok rs => Forall P rs | _ => True end) s.
Proof.
  induction fuel as [|fuel IH]; intros room p s; cbn [parse_loop]; destruct p as [|b p];
    try (wps; first [exact I|constructor]; fail).
  destruct (Nat.ltb _ _); [wps; exact I|].
  destruct (Nat.ltb _ _); [wps; exact I|].
  apply wp_bind. wpuse rx_rec_parse. intros [[r|]|e|n] s' Hr; auto.
  destruct room as [|room]; [wps; exact I|].
  apply wp_bind. wpuse IH. intros [rs|e|n] s'' Hrs; auto. wps. constructor; assumption.
Qed.

Lemma rx_classify r s : P r -> wp (classify_record r) (fun o _ =>
  match o with Ok (Some r) => P r | _ => True end) s.
Proof. intros H. unfold classify_record. wps; auto. Qed.

Lemma rx_classify_all rs : Forall P rs -> forall s, wp (classify_all rs) (fun o _ =>
  match o with Ok rs => Forall P rs | _ => True end) s.
Proof.
  induction 1 as [|r rs Hr Hrs IH]; intro s; cbn [classify_all]; [wps; constructor|].
  apply wp_bind. wpuse (rx_classify r s Hr). intros [o|e|n] s' Ho; auto.
  apply wp_bind. wpuse IH. intros [rs'|e|n] s'' Hrs'; auto. wps.
  destruct o; [constructor|]; assumption.
Qed.

Lemma rx_records_parse p s : wp (records_parse E p) (fun o _ =>
  match o with Ok rs => Forall P rs | _ => True end) s.
Proof.
  unfold records_parse. apply wp_bind. wpuse rx_parse_loop. intros [rs|e|n] s' H; auto.
  apply rx_classify_all, H.
Qed.

Lemma rx_insert inc : Forall P inc -> pres Rrx (insert_incoming E inc).
Proof.
  intros Hi. unfold insert_incoming, insert_incoming_handshake, insert_incoming_non_handshake.
  presauto Rrx_po ltac:(first
    [ apply fr_flight_resend; rpre | apply fr_bsearch; rpre
    | apply pres_modify; intros s Hs; apply Forall_insert_at; [|exact Hs] ]); try exact Hi.
  destruct (en_penc _); [|exact Hi]. apply Forall_map. revert Hi. apply Forall_impl. exact P_plain.
Qed.

Lemma rx_parse p : pres Rrx (eng12_parse_packet E p).
Proof.
  intro s. unfold eng12_parse_packet.
  apply (wp_bind _ _ (fun _ s' => Rrx s s')).
  assert (H1 : wp (records_parse E p) (fun _ s' => Rrx s s') s).
  { apply (wp_pres Rrx), (fr_records_parse E Rrx); rpre. }
  eapply wp_mono; [apply (wp_conj _ _ _ _ H1 (rx_records_parse p s))|].
  intros [rs|e|n] s' [Ha Hb]; try exact Ha.
  destruct rs as [|r rs]; [exact Ha|].
  eapply wp_mono; [apply (wp_pres Rrx), (rx_insert (r :: rs) Hb)|]. intros r' s'' H. eapply Rrx_po; eauto.
Qed.

Lemma rx_mark_first f q : Forall (Forall P) q -> Forall (Forall P) (mark_first f q).
Proof.
  intros H. unfold mark_first. apply map_acc_Forall; [|exact H].
  intros st x Hx. apply map_acc_Forall; [|exact Hx].
  intros b r Hr. unfold mark_rec. destruct b; [exact Hr|]. destruct (f r); [apply P_handled|]; exact Hr.
Qed.
Lemma rx_mark_run q : Forall (Forall P) q -> Forall (Forall P) (mark_run q).
Proof.
  intros H. unfold mark_run. apply map_acc_Forall; [|exact H].
  intros st x Hx. apply map_acc_Forall; [|exact Hx]. intros b r Hr. apply P_frags, Hr.
Qed.

Ltac rxm := apply pres_modify; intros s0 H0; unfold Qok in *; cbn [en_rx set_en_rx set_en_transcript
  set_en_peer_hs set_en_tx set_en_cn_rep];
  first [exact H0 | apply rx_mark_run, H0 | apply rx_mark_first, H0 | apply Forall_skip_while, H0 ].

Lemma rx_frame : eng_frame E Rrx.
Proof.
  constructor; [constructor; [exact Rrx_po|..]|..].
  all: first
    [ solve [rtriv]
    | exact rx_parse
    | apply fr_flight_begin; solve [rpre]
    | intros; apply fr_create_record; solve [rpre]
    | intros; apply fr_create_handshake; solve [rpre; assumption]
    | apply fr_reset_client; solve [rpre] | intro; apply fr_set_suite; solve [rpre]
    | apply fr_flight_stop; solve [rpre] | apply fr_release; solve [rpre]
    | apply fr_discard; solve [rpre] | apply fr_abort; solve [rpre]
    | intro; apply fr_handle_timeout; solve [rpre]
    | intro; unfold next_record; solve [presauto Rrx_po rxm]
    | intro; unfold next_handshake; solve [presauto Rrx_po rxm]
    | intros; unfold eng12_poll_output, poll_app_data, poll_packet_tx; solve [presauto Rrx_po rxm]
    | idtac ].
  - unfold drop_pending_ccs. apply pres_modify. intros s H. unfold Qok in *. cbn.
    apply Forall_map. revert H. apply Forall_impl. intros inc H. apply Forall_map. revert H.
    apply Forall_impl. intros r Hr. destruct (_ =? _); [apply P_handled|]; exact Hr.
  - apply pres_modify. intros s H. constructor.
  - intro s. unfold enable_peer_encryption. apply (wp_bind _ _ (fun _ s' => Rrx s s')), wp_modify.
    apply wp_bind, wp_get. change (en_rx (set_en_penc true s)) with (en_rx s).
    destruct (split_epoch1 (en_rx s)) as [keep again] eqn:Hs. apply wp_bind, wp_modify.
    eapply wp_mono; [apply (wp_pres Rrx), (pres_iterM Rrx Rrx_po); intro; apply rx_parse|].
    intros r s' H. cbv beta in H. eapply Rrx_po; [|exact H].
    intros Hq. unfold Qok in *. cbn. apply split_epoch1_app in Hs. rewrite Hs in Hq.
    apply Forall_app in Hq. apply Hq.
Qed.

Lemma rx_invariant cfg auth h s : reach12 E cfg auth h s -> Forall (Forall P) (en_rx (end_eng s)).
Proof. intros H. apply (lf_reach E Rrx rx_frame _ _ _ _ H). constructor. Qed.
End RxInv.
