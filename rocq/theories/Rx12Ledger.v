(** What a DTLS 1.2 endpoint accepts: every record it opens has a new number, and
    what it delivers comes from the records it opened. *)
From Coq Require Import Permutation.
From Verif Require Import Prelude PreludeFacts Types Codec CodecProofs Codec12 Record12 Monad MonadFacts Timer Env
  Config Aead Prf Window WindowProofs Context12 Engine12 Client12 Server12 Engine12Frame Send12Proofs History12
  History12Facts EndFrame12 View12 Poll12Proofs Spec Record12Proofs Rx12Proofs Timer12Proofs Ledger12
  ClientInv12 ClientStep12 ServerInv12 ServerStep12 Events12 Lift12 Step12 Keys12.

(** ** Specification *)

(** [record_of p raw]: [raw] is one of the records the datagram [p] is cut into,
    each 13 bytes of header and as many bytes as its length field says. *)
Definition cut (p : bytes) : nat := (13 + N.to_nat (unbe (firstn 2 (skipn 11 p))))%nat.
Inductive record_of : bytes -> bytes -> Prop :=
| record_here p : (13 <= length p)%nat -> (cut p <= length p)%nat -> record_of p (firstn (cut p) p)
| record_next p raw : (13 <= length p)%nat -> (cut p <= length p)%nat ->
    record_of (skipn (cut p) p) raw -> record_of p raw.
Definition record_in (pk : list bytes) (raw : bytes) : Prop := exists p, In p pk /\ record_of p raw.

(** The AEAD does not expand when opening. *)
Definition open_shrinks (E : Env) : Prop :=
  forall s k n a c p, e_open E s k n a c = Some p -> (length p <= length c)%nat.

Section Rx.
Variable E : Env.

(** [opens e raw ct ep sq d]: under the peer's traffic key held in [e], [raw] is a
    protected record of type [ct], epoch [ep] and number [sq] with content [d]. *)
Definition opens (e : Eng12) (raw : bytes) (ct ep sq : N) (d : bytes) : Prop :=
  exists r iv nonce, p_parsed12 0 raw = Some r /\
    r_ctype r = ct /\ r_epoch r = ep /\ r_seq r = sq /\ ep <> 0 /\
    peer_iv e = Some iv /\
    record_nonce (en_enl e) iv ep sq (firstn (en_enl e) (r_frag r)) = Some nonce /\
    cipher_open E (peer_cipher e) nonce (aad12 ct ep sq (r_length r - u16 (N.of_nat (en_minp e))))
      (skipn (13 + en_enl e) raw) = Some d /\
    N.of_nat (en_minp e) <= r_length r.

Lemma opens_same a b raw ct ep sq d : same_keys12 a b -> opens a raw ct ep sq d -> opens b raw ct ep sq d.
Proof.
  intros (H1 & H2 & H3 & H4 & H5). unfold opens, peer_iv, peer_cipher. rewrite H1, H3, H4, H5. auto.
Qed.

(** ** Records of a datagram *)

Lemma record_of_self p raw : record_of p raw -> (13 <= length raw)%nat /\ cut raw = length raw.
Proof.
  induction 1 as [p H1 H2|p raw H1 H2 H IH]; [|exact IH].
  assert (L : length (firstn (cut p) p) = cut p) by (rewrite firstn_length; lia).
  rewrite L. split; [unfold cut; lia|]. unfold cut at 1.
  replace (firstn 2 (skipn 11 (firstn (cut p) p))) with (firstn 2 (skipn 11 p)); [reflexivity|].
  rewrite skipn_firstn_comm, firstn_firstn. reflexivity.
Qed.
Lemma record_of_nil raw : ~ record_of [] raw.
Proof. inversion 1; cbn in *; lia. Qed.
Lemma record_of_short p raw : (length p < 13)%nat -> ~ record_of p raw.
Proof. intros H. inversion 1; lia. Qed.
Lemma record_of_record p raw raw' : record_of p raw -> record_of raw raw' -> raw' = raw.
Proof.
  intros H K. destruct (record_of_self _ _ H) as [L C]. inversion K; subst.
  - rewrite C. apply firstn_all.
  - rewrite C, skipn_all in H2. destruct (record_of_nil _ H2).
Qed.
Lemma record_of_bytes p raw : bytes_ok p -> record_of p raw -> bytes_ok raw.
Proof.
  intros B. induction 1 as [p H1 H2|p raw H1 H2 H IH].
  - unfold bytes_ok in *. rewrite <- (firstn_skipn (cut p) p) in B. apply Forall_app in B. apply B.
  - apply IH. unfold bytes_ok in *. rewrite <- (firstn_skipn (cut p) p) in B. apply Forall_app in B. apply B.
Qed.

Lemma parsed_shape raw r : bytes_ok raw -> p_parsed12 0 raw = Some r ->
  (exists rest, raw = s_rec12 (r_ctype r) (r_version r) (r_epoch r) (r_seq r) (r_frag r) ++ rest) /\
  r_length r = len (r_frag r) /\ rec_fields (r_ctype r) (r_version r) (r_epoch r) (r_seq r) (r_frag r) /\
  valid_header12 (r_ctype r) (r_version r) (r_epoch r) /\ r_buf r = raw /\ r_handled r = false.
Proof.
  intros B H. unfold p_parsed12 in H. destruct (p_rec12 0 raw) as [[[[[[[ct v] ep] sq] n] frag] rest]|] eqn:Hp; [|discriminate].
  injection H as <-. cbn [r_ctype r_version r_epoch r_seq r_frag r_length r_buf r_handled].
  apply p_rec12_inv in Hp; [|exact B]. destruct Hp as (-> & -> & F & V & _ & _). split; [exists rest; reflexivity|]. auto.
Qed.
Lemma parsed_buf skip raw r : p_parsed12 skip raw = Some r -> r_buf r = raw /\ r_handled r = false.
Proof.
  unfold p_parsed12. destruct (p_rec12 skip raw) as [[[[[[[ct v] ep] sq] n] frag] rest]|]; [|discriminate].
  intros [= <-]. auto.
Qed.
Lemma parsed_record p raw r : bytes_ok raw -> record_of p raw -> p_parsed12 0 raw = Some r ->
  raw = s_rec12 (r_ctype r) (r_version r) (r_epoch r) (r_seq r) (r_frag r).
Proof.
  intros B H K. destruct (record_of_self _ _ H) as [L C]. destruct (parsed_shape raw r B K) as ((rest & Hr) & _ & F & _).
  assert (C' : cut raw = (13 + length (r_frag r))%nat).
  { unfold cut. rewrite Hr. unfold s_rec12. rewrite <- !app_assoc.
    replace (skipn 11 (be 1 (r_ctype r) ++ be 2 (r_version r) ++ be 2 (r_epoch r) ++ be 6 (r_seq r) ++ be 2 (len (r_frag r)) ++ r_frag r ++ rest))
      with (be 2 (len (r_frag r)) ++ r_frag r ++ rest) by reflexivity.
    replace (firstn 2 (be 2 (len (r_frag r)) ++ r_frag r ++ rest)) with (be 2 (len (r_frag r))) by reflexivity.
    rewrite unbe_be_small by (destruct F as (_ & _ & _ & _ & F); cbn; lia). unfold len. lia. }
  assert (rest = []).
  { rewrite C' in C. rewrite Hr in C at 1. rewrite app_length in C. unfold s_rec12 in C. rewrite !app_length, !be_length in C.
    destruct rest; [reflexivity|cbn [length] in C; lia]. }
  subst rest. rewrite app_nil_r in Hr. exact Hr.
Qed.

(** The buffer of an opened record parses as the record with the plaintext. *)
Lemma reparse raw r enl pt : bytes_ok raw -> p_parsed12 0 raw = Some r -> (enl <= length (r_frag r))%nat -> len pt < 65536 ->
  let buf := firstn 11 raw ++ be 2 (len pt) ++ firstn enl (skipn 13 raw) ++ pt in
  p_parsed12 enl buf = Some (mkRec (r_ctype r) (r_version r) (r_epoch r) (r_seq r) (len pt) pt
    (if r_ctype r =? CT_HS then p_frags12 8 pt else []) false buf) /\
  buf = be 1 (r_ctype r) ++ be 2 (r_version r) ++ be 2 (r_epoch r) ++ be 6 (r_seq r) ++ be 2 (len pt) ++ firstn enl (r_frag r) ++ pt.
Proof.
  intros B H L P. cbv zeta. destruct (parsed_shape raw r B H) as ((rest & Hr) & _ & F & V & _).
  assert (Hb : firstn 11 raw ++ be 2 (len pt) ++ firstn enl (skipn 13 raw) ++ pt =
    be 1 (r_ctype r) ++ be 2 (r_version r) ++ be 2 (r_epoch r) ++ be 6 (r_seq r) ++ be 2 (len pt) ++ firstn enl (r_frag r) ++ pt).
  { rewrite Hr. unfold s_rec12. rewrite <- !app_assoc.
    replace (firstn 11 (be 1 (r_ctype r) ++ be 2 (r_version r) ++ be 2 (r_epoch r) ++ be 6 (r_seq r) ++ be 2 (len (r_frag r)) ++ r_frag r ++ rest))
      with (be 1 (r_ctype r) ++ be 2 (r_version r) ++ be 2 (r_epoch r) ++ be 6 (r_seq r)) by reflexivity.
    replace (skipn 13 (be 1 (r_ctype r) ++ be 2 (r_version r) ++ be 2 (r_epoch r) ++ be 6 (r_seq r) ++ be 2 (len (r_frag r)) ++ r_frag r ++ rest))
      with (r_frag r ++ rest) by reflexivity.
    rewrite <- !app_assoc. do 5 f_equal. rewrite firstn_app. replace (enl - length (r_frag r))%nat with 0%nat by lia.
    rewrite app_nil_r. reflexivity. }
  split; [|exact Hb]. rewrite Hb. destruct F as (F1 & F2 & F3 & F4 & F5). apply valid_header_b in V. destruct V as [V1 V2].
  unfold p_parsed12, p_rec12.
  rewrite p_u8_app by assumption. rewrite p_u16_app by assumption. rewrite V1.
  rewrite p_u16_app by assumption. rewrite V2. rewrite p_u48_app by (cbn in *; lia). rewrite p_u16_app by assumption.
  replace (skipn enl (firstn enl (r_frag r) ++ pt)) with pt.
  - unfold len at 1. rewrite Nat2N.id. rewrite <- (app_nil_r pt) at 2. rewrite take_app_n by reflexivity. reflexivity.
  - rewrite skipn_app, firstn_length. rewrite skipn_all2 by (rewrite firstn_length; lia).
    replace (enl - Nat.min enl (length (r_frag r)))%nat with 0%nat by lia. reflexivity.
Qed.
End Rx.

(** ** Weaker receive queues: records dropped or marked handled *)

Definition weaker (r' r : Rec12) : Prop :=
  r_ctype r' = r_ctype r /\ r_epoch r' = r_epoch r /\ r_seq r' = r_seq r /\ r_frag r' = r_frag r /\
  r_buf r' = r_buf r /\ (rec_handled r = true -> rec_handled r' = true).
Lemma weaker_refl r : weaker r r.
Proof. repeat split; auto. Qed.
Lemma weaker_trans a b c : weaker a b -> weaker b c -> weaker a c.
Proof. unfold weaker. intuition congruence. Qed.

Inductive wk : list Rec12 -> list Rec12 -> Prop :=
| wk_nil l : wk [] l
| wk_take r' r l' l : weaker r' r -> wk l' l -> wk (r' :: l') (r :: l)
| wk_skip r l' l : wk l' l -> wk l' (r :: l).
Lemma wk_refl l : wk l l.
Proof. induction l; constructor; auto using weaker_refl. Qed.
Lemma wk_trans a b c : wk a b -> wk b c -> wk a c.
Proof.
  intros H K. revert a H. induction K as [l|r' r l' l W K IH|r l' l K IH]; intros a H.
  - inversion H; subst. constructor.
  - inversion H; subst; [constructor|apply wk_take; eauto using weaker_trans|apply wk_skip; auto].
  - apply wk_skip. auto.
Qed.
Lemma wk_app a b c d : wk a b -> wk c d -> wk (a ++ c) (b ++ d).
Proof.
  induction 1 as [l|r' r l' l W K IH|r l' l K IH]; intro H; cbn [app].
  - induction l; [exact H|constructor; assumption].
  - apply wk_take; auto.
  - apply wk_skip; auto.
Qed.
Lemma wk_suffix a b : wk b (a ++ b).
Proof. induction a; [apply wk_refl|constructor; assumption]. Qed.
Lemma wk_Forall (P : Rec12 -> Prop) a b : (forall r' r, weaker r' r -> P r -> P r') -> wk a b -> Forall P b -> Forall P a.
Proof.
  intros HP. induction 1 as [l|r' r l' l W K IH|r l' l K IH]; intro F; [constructor|..]; inversion F; subst; eauto.
Qed.

Definition app_item (r : Rec12) : N * bytes := (r_seq r, r_frag r).
Definition app_items (q : list (list Rec12)) : list (N * bytes) := map app_item (filter unhandled_app (concat q)).
Lemma unhandled_weaker r' r : weaker r' r -> unhandled_app r' = true -> unhandled_app r = true.
Proof.
  intros (H1 & _ & _ & _ & _ & H). unfold unhandled_app, is_app. rewrite H1. destruct (rec_handled r); [rewrite H by reflexivity; intro K; exact K|].
  intro K. apply andb_prop in K. destruct K as [-> _]. reflexivity.
Qed.
Lemma wk_items a b : wk a b -> sub (map app_item (filter unhandled_app a)) (map app_item (filter unhandled_app b)).
Proof.
  induction 1 as [l|r' r l' l W K IH|r l' l K IH]; [apply sub_nil_l|..]; cbn [filter].
  - pose proof (unhandled_weaker _ _ W) as U. destruct (unhandled_app r') eqn:H'.
    + rewrite U by reflexivity. cbn [map]. replace (app_item r') with (app_item r); [apply sub_take, IH|].
      destruct W as (_ & _ & W1 & W2 & _). unfold app_item. congruence.
    + destruct (unhandled_app r); [apply sub_skip|]; exact IH.
  - destruct (unhandled_app r); [apply sub_skip|]; exact IH.
Qed.

Lemma map_acc_wk {S} (f : S -> Rec12 -> Rec12 * S) l : (forall st r, weaker (fst (f st r)) r) ->
  forall st, wk (fst (map_acc f st l)) l.
Proof.
  intros Hf. induction l as [|r l IH]; intro st; cbn [map_acc]; [constructor|].
  specialize (Hf st r). destruct (f st r) as [r' st']. specialize (IH st'). destruct (map_acc f st' l). constructor; assumption.
Qed.
Lemma map_acc2_wk {S} (f : S -> Rec12 -> Rec12 * S) q : (forall st r, weaker (fst (f st r)) r) ->
  forall st, wk (concat (fst (map_acc (map_acc f) st q))) (concat q).
Proof.
  intros Hf. induction q as [|l q IH]; intro st; cbn [map_acc]; [constructor|].
  pose proof (map_acc_wk f l Hf st) as H. destruct (map_acc f st l) as [l' st']. specialize (IH st').
  destruct (map_acc (map_acc f) st' q). cbn [fst concat]. apply wk_app; assumption.
Qed.
Lemma handled_weaker r : weaker (set_r_handled true r) r.
Proof.
  destruct r. unfold set_r_handled, rec_handled. cbn. repeat split. destruct r_hs; auto.
Qed.
Lemma mark_frag_mono st l : forallb f_handled l = true -> forallb f_handled (fst (map_acc mark_frag st l)) = true.
Proof.
  revert st. induction l as [|f l IH]; intro st; cbn [map_acc forallb]; [auto|].
  intro H. apply andb_prop in H. destruct H as [H1 H2].
  destruct (mark_frag st f) as [f' st'] eqn:Hm. specialize (IH st' H2). destruct (map_acc mark_frag st' l). cbn [fst forallb] in *.
  rewrite IH, andb_true_r. unfold mark_frag in Hm. destruct st; [rewrite H1 in Hm|destruct (_ && _)|]; injection Hm as <- _; auto.
Qed.
Lemma map_acc_length {S A} (f : S -> A -> A * S) l : forall st, length (fst (map_acc f st l)) = length l.
Proof.
  induction l as [|x l IH]; intro st; cbn [map_acc]; [reflexivity|]. destruct (f st x) as [x' st']. specialize (IH st').
  destruct (map_acc f st' l). cbn in *. lia.
Qed.
Lemma frags_weaker st r : weaker (fst (mark_rec_frags st r)) r.
Proof.
  unfold mark_rec_frags. pose proof (mark_frag_mono st (r_hs r)) as M. pose proof (map_acc_length mark_frag (r_hs r) st) as L.
  destruct (map_acc mark_frag st (r_hs r)) as [hs st']. cbn [fst] in *. destruct r. unfold set_r_hs, rec_handled. cbn in *.
  repeat split. destruct hs, r_hs; try discriminate; auto.
Qed.
Lemma mark_first_wk f q : wk (concat (mark_first f q)) (concat q).
Proof.
  unfold mark_first. apply map_acc2_wk. intros [|] r; unfold mark_rec; [apply weaker_refl|].
  destruct (f r); [apply handled_weaker|apply weaker_refl].
Qed.
Lemma mark_run_wk q : wk (concat (mark_run q)) (concat q).
Proof. unfold mark_run. apply map_acc2_wk. intros; apply frags_weaker. Qed.
Lemma drop_ccs_wk q : wk (concat (map (map (fun r => if r_ctype r =? CT_CCS then set_r_handled true r else r)) q)) (concat q).
Proof.
  induction q as [|l q IH]; cbn [map concat]; [constructor|]. apply wk_app; [|exact IH].
  induction l as [|r l IHl]; cbn [map]; constructor; [|exact IHl]. destruct (_ =? _); [apply handled_weaker|apply weaker_refl].
Qed.
Lemma skip_suffix {A} f (l : list A) : exists h, l = h ++ skip_while f l.
Proof.
  induction l as [|x l [h IH]]; [exists []; reflexivity|]. cbn [skip_while]. destruct (f x); [exists (x :: h); cbn; congruence|exists []; reflexivity].
Qed.
Lemma purge_wk q : wk (concat (purge_handled q)) (concat q).
Proof.
  unfold purge_handled. destruct (skip_suffix (forallb rec_handled) q) as [h Hh]. rewrite Hh at 2. rewrite concat_app. apply wk_suffix.
Qed.

(** ** The frame of everything but receiving *)

Definition Rq (a b : Eng12) : Prop :=
  wk (concat (en_rx b)) (concat (en_rx a)) /\ en_replay b = en_replay a /\ en_cn_recv b = en_cn_recv a /\
  en_penc b = en_penc a /\ (en_release a = true -> en_release b = true).
Lemma Rq_po : preorder Rq.
Proof.
  split; unfold Rq; [intros; repeat split; auto using wk_refl|].
  intros a b c (A1 & A2 & A3 & A4 & A5) (B1 & B2 & B3 & B4 & B5).
  split; [eapply wk_trans; eauto|]. repeat split; try congruence; auto.
Qed.
Ltac rq_triv := intros; repeat split; try reflexivity; try apply wk_refl; auto.
Ltac rqpre := first [exact Rq_po | solve [rq_triv]].
Ltac rqm := apply pres_modify; intros s0; unfold Rq; cbn [en_rx en_replay en_cn_recv en_penc en_release set_en_rx set_en_transcript
  set_en_peer_hs set_en_tx set_en_cn_rep];
  (split; [first [apply wk_refl | apply mark_run_wk | apply mark_first_wk | apply purge_wk | apply drop_ccs_wk | apply wk_nil]|repeat split; auto]).

Section RqFrame.
Variable E : Env.
Lemma Rq_mid : mid_frame E Rq.
Proof.
  constructor; [constructor|..];
  first
    [ solve [rqpre]
    | solve [intros; apply fr_create_record; rqpre]
    | solve [intros; apply fr_create_handshake; first [assumption|rqpre]]
    | solve [apply fr_reset_client; rqpre]
    | solve [apply fr_flight_begin; rqpre]
    | solve [apply fr_flight_stop; rqpre]
    | solve [intros; apply fr_set_suite; rqpre]
    | solve [apply fr_release; rqpre] | solve [apply fr_discard; rqpre]
    | solve [intros; unfold next_record, next_handshake, drop_pending_ccs, reset_server_for_hvr; presauto Rq_po rqm]
    | idtac ].
Qed.
End RqFrame.

(** ** Receiving with protection on *)

Section Recv.
Variable E : Env.
Hypothesis SOK : suites12_ok E.
Hypothesis OS : open_shrinks E.

(** No application data record of a later epoch was received: such records are
    taken unopened before the peer's ChangeCipherSpec (see PropRx12). *)
Definition epochs_ok (pk : list bytes) : Prop :=
  forall raw r, record_in pk raw -> p_parsed12 0 raw = Some r -> r_ctype r = CT_APP -> r_epoch r <= 1.
Definition good (pk : list bytes) : Prop := Forall bytes_ok pk /\ epochs_ok pk.

Lemma record_in_bytes pk raw : good pk -> record_in pk raw -> bytes_ok raw.
Proof. intros [B _] (p & Hp & Hr). rewrite Forall_forall in B. eapply record_of_bytes; [apply B, Hp|exact Hr]. Qed.
Lemma record_in_app pk p raw : record_in pk raw -> record_in (pk ++ p) raw.
Proof. intros (q & Hq & Hr). exists q. split; [apply in_or_app; auto|exact Hr]. Qed.
Lemma good_app pk p : good (pk ++ p) -> good pk.
Proof.
  intros [B H]. apply Forall_app in B. split; [apply B|]. intros raw r Hr. apply H. apply record_in_app, Hr.
Qed.

Definition stale (seen : list N) (raw : bytes) : Prop :=
  forall r, p_parsed12 0 raw = Some r -> r_epoch r <> 0 /\ In (r_seq r) seen.
Definition from (pk : list bytes) (seen : list N) (buf : bytes) : Prop :=
  forall raw, record_of buf raw -> record_in pk raw \/ stale seen raw.
Lemma stale_incl seen seen' raw : incl seen seen' -> stale seen raw -> stale seen' raw.
Proof. intros I H r Hr. specialize (H r Hr). split; [apply H|apply I, H]. Qed.
Lemma from_incl pk seen seen' b : incl seen seen' -> from pk seen b -> from pk seen' b.
Proof. intros I H raw Hr. destruct (H raw Hr); [left; assumption|right; eapply stale_incl; eauto]. Qed.

(** What a newly parsed record is. *)
Definition opened (pk : list bytes) (e : Eng12) (r : Rec12) : Prop :=
  exists raw, record_in pk raw /\ opens E e raw (r_ctype r) (r_epoch r) (r_seq r) (r_frag r).
Definition fresh (pk : list bytes) (seen seen' : list N) (e : Eng12) (r : Rec12) : Prop :=
  from pk seen' (r_buf r) /\
  ((r_epoch r = 0 /\ r_ctype r <> CT_APP) \/ (opened pk e r /\ r_epoch r <> 0 /\ ~ In (r_seq r) seen /\ In (r_seq r) seen')).
Lemma fresh_mono pk s1 s1' s2 s2' e r : incl s1' s1 -> incl s2 s2' -> fresh pk s1 s2 e r -> fresh pk s1' s2' e r.
Proof.
  intros I1 I2 [H1 H2]. split; [eapply from_incl; eauto|]. destruct H2 as [H2|(H2 & H3 & H4 & H5)]; [left; exact H2|right].
  repeat split; auto.
Qed.
Lemma opened_same pk a b r : same_keys12 a b -> opened pk a r -> opened pk b r.
Proof. intros S (raw & H1 & H2). exists raw. split; [exact H1|eapply opens_same; eauto]. Qed.
Lemma fresh_same pk s1 s2 a b r : same_keys12 a b -> fresh pk s1 s2 a r -> fresh pk s1 s2 b r.
Proof. intros S [H1 H2]. split; [exact H1|]. destruct H2 as [H2|(H2 & H3)]; [left|right]; auto. split; [eapply opened_same; eauto|exact H3]. Qed.

Lemma linked_enl e : linked E e -> (en_enl e < 13)%nat.
Proof.
  unfold linked. destruct (en_suite e); [|intros [-> _]; lia]. intros (i & Hi & -> & _).
  destruct (SOK _ _ Hi) as [(_ & ->)|(_ & ->)]; lia.
Qed.
Lemma linked_minp e : linked E e -> (en_enl e <= en_minp e)%nat.
Proof. unfold linked. destruct (en_suite e); [|intros [-> ->]; lia]. intros (i & _ & -> & ->). lia. Qed.

(** Only the replay window and the confirmation flag move while parsing. *)
Definition moved (a b : Eng12) : Prop :=
  en_rx b = en_rx a /\ en_cn_recv b = en_cn_recv a /\ en_penc b = en_penc a /\ en_release b = en_release a /\ same_keys12 a b.
Lemma moved_refl a : moved a a.
Proof. repeat split. Qed.
Lemma moved_trans a b c : moved a b -> moved b c -> moved a c.
Proof. intros (A1 & A2 & A3 & A4 & A5) (B1 & B2 & B3 & B4 & B5). repeat split; try congruence; apply (po_trans _ sk_po a b c A5 B5). Qed.

Definition ledger (pk : list bytes) (seen seen' : list N) (e e' : Eng12) (rs : list Rec12) : Prop :=
  Forall (fresh pk seen seen' e) rs /\ NoDup (map r_seq (filter (fun r => negb (r_epoch r =? 0)) rs)).
Definition adv (pk : list bytes) (seen : list N) (e : Eng12) (rs : list Rec12) (e' : Eng12) : Prop :=
  exists seen', incl seen seen' /\ window_inv (en_replay e') seen' /\ moved e e' /\ ledger pk seen seen' e e' rs.

Lemma adv_nil pk seen e : window_inv (en_replay e) seen -> adv pk seen e [] e.
Proof. intro W. exists seen. split; [apply incl_refl|]. split; [exact W|]. split; [apply moved_refl|]. split; constructor. Qed.

Lemma cipher_open_shrinks c n a ct p : cipher_open E c n a ct = Some p -> (length p <= length ct)%nat.
Proof. unfold cipher_open. destruct c as [[cs k]|]; [apply OS|discriminate]. Qed.

Lemma epoch0_not_app raw r : p_parsed12 0 raw = Some r -> r_epoch r = 0 -> r_ctype r <> CT_APP.
Proof.
  unfold p_parsed12, p_rec12. destruct (p_u8 raw) as [[ct l]|]; [|discriminate]. destruct (p_u16 l) as [[v l1]|]; [|discriminate].
  destruct (negb _); [discriminate|]. destruct (p_u16 l1) as [[ep l2]|]; [|discriminate].
  destruct ((ep =? 0) && _) eqn:Hc; [discriminate|]. destruct (p_u48 l2) as [[sq l3]|]; [|discriminate].
  destruct (p_u16 l3) as [[n l4]|]; [|discriminate]. destruct (take _ _) as [[f r']|]; [|discriminate].
  intros [= <-]. cbn [r_epoch r_ctype]. intros -> ->. discriminate Hc.
Qed.

Lemma rec_parse_high pk seen raw e : good pk -> (record_of raw raw -> record_in pk raw \/ stale seen raw) -> record_of raw raw ->
  en_penc e = true -> linked E e -> window_inv (en_replay e) seen ->
  wp (rec_parse E raw) (fun o e' => adv pk seen e (match o with Ok (Some r) => [r] | _ => [] end) e') e.
Proof.
  intros G Src Rof Pe Li W. unfold rec_parse. destruct (p_parsed12 0 raw) as [r|] eqn:Hp; [|apply wp_ret; apply adv_nil, W].
  apply wp_bind, wp_get. rewrite Pe. cbn [negb]. rewrite orb_false_r.
  destruct (parsed_buf _ _ _ Hp) as [Hb Hh].
  destruct (N.eqb_spec (r_epoch r) 0) as [E0|E0].
  { apply wp_ret. exists seen. split; [apply incl_refl|]. split; [exact W|]. split; [apply moved_refl|].
    split; [|cbn; rewrite E0; constructor]. constructor; [|constructor]. split; [|left; split; [exact E0|eapply epoch0_not_app; eauto]].
    rewrite Hb. intros raw' H. pose proof (record_of_record _ _ _ Rof H) as ->. auto. }
  destruct (window_check (en_replay e) (r_seq r)) eqn:Hc; cbn [negb]; [|apply wp_ret; apply adv_nil, W].
  pose proof Hc as Hc0. apply (window_check_spec _ _ _ W) in Hc0. destruct Hc0 as [New _].
  destruct (Src Rof) as [Rin|St]; [|destruct (St r Hp); contradiction]. clear Src.
  pose proof (record_in_bytes _ _ G Rin) as B.
  destruct (N.ltb_spec (r_length r) (N.of_nat (en_minp e))) as [Hl|Hl]; [apply wp_ret; apply adv_nil, W|].
  unfold decryption_aad_and_nonce. apply wp_bind, wp_bind, wp_get.
  destruct (peer_iv e) as [iv|] eqn:Hiv; [|apply wp_panic; apply adv_nil, W].
  destruct (record_nonce _ _ _ _ _) as [nonce|] eqn:Hn; [|apply wp_panic; apply adv_nil, W].
  apply wp_ret. destruct (cipher_open E (peer_cipher e) nonce _ _) as [pt|] eqn:Ho.
  2:{ destruct (en_release e); [apply wp_ret|apply wp_fail]; apply adv_nil, W. }
  destruct (parsed_shape _ _ B Hp) as (_ & Hlen & F & V & _).
  pose proof (parsed_record _ _ _ B Rof Hp) as Hraw.
  assert (Lraw : length raw = (13 + length (r_frag r))%nat).
  { rewrite Hraw. unfold s_rec12. rewrite !app_length, !be_length. lia. }
  assert (Lenl : (en_enl e <= length (r_frag r))%nat).
  { pose proof (linked_minp e Li). rewrite Hlen in Hl. unfold len in Hl. lia. }
  assert (Lpt : len pt < 65536).
  { apply cipher_open_shrinks in Ho. unfold HEADER_LEN in Ho. rewrite skipn_length, Lraw in Ho.
    destruct F as (_ & _ & _ & _ & F). unfold len in *. lia. }
  destruct (reparse raw r (en_enl e) pt B Hp Lenl Lpt) as [Hre Hbuf].
  apply wp_bind, wp_modify. apply wp_bind. unfold when.
  assert (Fin : forall e', moved e e' -> window_inv (en_replay e') (r_seq r :: seen) ->
    adv pk seen e [mkRec (r_ctype r) (r_version r) (r_epoch r) (r_seq r) (len pt) pt
      (if r_ctype r =? CT_HS then p_frags12 8 pt else []) false
      (firstn 11 raw ++ be 2 (len pt) ++ firstn (en_enl e) (skipn 13 raw) ++ pt)] e').
  { intros e' M W'. exists (r_seq r :: seen). split; [apply incl_tl, incl_refl|]. split; [exact W'|]. split; [exact M|].
    split; [|cbn [filter r_epoch]; destruct (negb _); repeat constructor; intros []].
    constructor; [|constructor]. split; cbn [r_buf r_epoch r_ctype r_seq r_frag].
    - rewrite Hbuf. intros raw' Hr. right.
      assert (Hcut : forall t, cut (be 1 (r_ctype r) ++ be 2 (r_version r) ++ be 2 (r_epoch r) ++ be 6 (r_seq r) ++ be 2 (len pt) ++ t) = (13 + length pt)%nat).
      { intro t. unfold cut.
        replace (skipn 11 (be 1 (r_ctype r) ++ be 2 (r_version r) ++ be 2 (r_epoch r) ++ be 6 (r_seq r) ++ be 2 (len pt) ++ t)) with (be 2 (len pt) ++ t) by reflexivity.
        replace (firstn 2 (be 2 (len pt) ++ t)) with (be 2 (len pt)) by reflexivity.
        rewrite unbe_be_small by (cbn; lia). unfold len. lia. }
      inversion Hr as [p H1 H2 H3 H4|p raw0 H1 H2 H3 H4 H5]; subst.
      + clear Hr. intros r' Hr'. rewrite Hcut in Hr'.
        set (t := firstn (en_enl e) (r_frag r) ++ pt) in *.
        assert (Ht : (length pt <= length t)%nat) by (unfold t; rewrite app_length; lia). clearbody t.
        replace (firstn (13 + length pt) (be 1 (r_ctype r) ++ be 2 (r_version r) ++ be 2 (r_epoch r) ++ be 6 (r_seq r) ++ be 2 (len pt) ++ t))
          with (be 1 (r_ctype r) ++ be 2 (r_version r) ++ be 2 (r_epoch r) ++ be 6 (r_seq r) ++ be 2 (len pt) ++ firstn (length pt) t) in Hr' by reflexivity.
        destruct F as (F1 & F2 & F3 & F4 & F5). apply valid_header_b in V. destruct V as [V1 V2].
        unfold p_parsed12, p_rec12 in Hr'.
        rewrite p_u8_app in Hr' by assumption. rewrite p_u16_app in Hr' by assumption. rewrite V1 in Hr'.
        rewrite p_u16_app in Hr' by assumption. rewrite V2 in Hr'. rewrite p_u48_app in Hr' by (cbn in *; lia). rewrite p_u16_app in Hr' by assumption.
        destruct (take _ _) as [[fr re]|]; [|discriminate]. injection Hr' as <-. cbn [r_epoch r_seq]. split; [exact E0|left; reflexivity].
      + exfalso. rewrite Hcut in H3.
        set (t := firstn (en_enl e) (r_frag r) ++ pt) in *.
        replace (skipn (13 + length pt) (be 1 (r_ctype r) ++ be 2 (r_version r) ++ be 2 (r_epoch r) ++ be 6 (r_seq r) ++ be 2 (len pt) ++ t))
          with (skipn (length pt) t) in H3 by reflexivity.
        eapply record_of_short; [|exact H3]. unfold t. rewrite skipn_length, app_length, firstn_length. pose proof (linked_enl e Li). lia.
    - right. split; [|split; [exact E0|split; [exact New|left; reflexivity]]].
      exists raw. split; [exact Rin|]. exists r, iv, nonce. repeat split; auto. }
  assert (W' : window_inv (window_update (en_replay e) (r_seq r)) (r_seq r :: seen)) by (apply window_update_inv; assumption).
  destruct (r_ctype r =? CT_APP); [apply wp_modify|apply wp_ret]; rewrite Hre; apply wp_ret;
    (apply Fin; [repeat split|exact W']).
Qed.

Lemma moved_linked a b : moved a b -> linked E a -> linked E b.
Proof. intros (_ & _ & _ & _ & S). apply sk_linked, S. Qed.

Lemma parse_loop_high pk fuel : forall room p seen e, good pk -> from pk seen p ->
  en_penc e = true -> linked E e -> window_inv (en_replay e) seen ->
  wp (parse_loop E fuel room p) (fun o e' => adv pk seen e (match o with Ok rs => rs | _ => [] end) e') e.
Proof.
  induction fuel as [|fuel IH]; intros room p seen e G Src Pe Li W; cbn [parse_loop]; destruct p as [|b p];
    try (apply wp_ret; apply adv_nil, W); try (apply wp_panic; apply adv_nil, W).
  set (q := b :: p) in *. clearbody q. clear b p.
  destruct (Nat.ltb_spec (length q) HEADER_LEN) as [H1|H1]; [apply wp_fail; apply adv_nil, W|]. cbv zeta. unfold HEADER_LEN in *.
  change ((13 + N.to_nat (unbe (firstn 2 (skipn 11 q))))%nat) with (cut q).
  destruct (Nat.ltb_spec (length q) (cut q)) as [H2|H2]; [apply wp_fail; apply adv_nil, W|].
  assert (Rof : record_of q (firstn (cut q) q)) by (constructor; assumption).
  assert (Rof' : record_of (firstn (cut q) q) (firstn (cut q) q)).
  { destruct (record_of_self _ _ Rof) as [A B]. pose proof (record_here _ A ltac:(rewrite B; apply Nat.le_refl)) as X.
    rewrite B, firstn_all in X. exact X. }
  apply wp_bind. eapply wp_mono; [apply (rec_parse_high pk seen); auto|]. cbv beta.
  assert (Src' : from pk seen (skipn (cut q) q)) by (intros raw Hr; apply Src; apply record_next; assumption).
  intros o e1 (s1 & I1 & W1 & M1 & L1).
  assert (Pe1 : en_penc e1 = true) by (destruct M1 as (_ & _ & -> & _); exact Pe).
  pose proof (moved_linked _ _ M1 Li) as Li1.
  pose proof (from_incl _ _ _ _ I1 Src') as Src1.
  assert (Nil : adv pk seen e [] e1).
  { exists s1. split; [exact I1|]. split; [exact W1|]. split; [exact M1|split; constructor]. }
  destruct o as [[r|]|x|x]; [| |exact Nil..].
  - destruct room as [|room]; [apply wp_fail; exact Nil|].
    apply wp_bind. eapply wp_mono; [apply (IH room _ s1 e1 G Src1 Pe1 Li1 W1)|]. cbv beta.
    intros o e2 (s2 & I2 & W2 & M2 & L2).
    assert (I12 : incl seen s2) by (eapply incl_tran; eauto).
    destruct o as [rs|x|x].
    + apply wp_ret. exists s2. split; [exact I12|]. split; [exact W2|]. split; [eapply moved_trans; eauto|].
      destruct L1 as [L1 _], L2 as [L2 N2]. inversion L1 as [|? ? L1' _]; subst. split.
      * constructor; [eapply fresh_mono; [apply incl_refl| |exact L1']; exact I2|].
        eapply Forall_impl; [|exact L2]. intros r' Hr'. eapply fresh_same; [|eapply fresh_mono; [exact I1|apply incl_refl|exact Hr']].
        destruct M1 as (_ & _ & _ & _ & (S1 & S2 & S3 & S4 & S5)). repeat split; congruence.
      * cbn [filter]. destruct (N.eqb_spec (r_epoch r) 0) as [Ez|Ez]; cbn [negb map]; [exact N2|]. constructor; [|exact N2].
        destruct L1' as [_ [(L1' & _)|(_ & _ & _ & Hin)]]; [contradiction|].
        intro Hx. apply in_map_iff in Hx. destruct Hx as (r' & Hs & Hx). apply filter_In in Hx. destruct Hx as [Hx Hz].
        rewrite Forall_forall in L2. destruct (L2 _ Hx) as [_ [(L2' & _)|(_ & _ & Hn & _)]]; [rewrite L2' in Hz; discriminate|].
        apply Hn. rewrite Hs. exact Hin.
    + exists s2. split; [exact I12|]. split; [exact W2|]. split; [eapply moved_trans; eauto|split; constructor].
    + exists s2. split; [exact I12|]. split; [exact W2|]. split; [eapply moved_trans; eauto|split; constructor].
  - eapply wp_mono; [apply (IH room _ s1 e1 G Src1 Pe1 Li1 W1)|]. cbv beta.
    intros o e2 (s2 & I2 & W2 & M2 & L2).
    assert (I12 : incl seen s2) by (eapply incl_tran; eauto).
    exists s2. split; [exact I12|]. split; [exact W2|]. split; [eapply moved_trans; eauto|].
    destruct L2 as [L2 N2]. split; [|exact N2]. 
    eapply Forall_impl; [|exact L2]. intros r' Hr'. eapply fresh_same; [|eapply fresh_mono; [exact I1|apply incl_refl|exact Hr']].
    destruct M1 as (_ & _ & _ & _ & (S1 & S2 & S3 & S4 & S5)). repeat split; congruence.
Qed.

(** An authenticated close_notify. *)
Definition close_alert (pk : list bytes) (e : Eng12) : Prop :=
  exists raw ep sq lvl rest, record_in pk raw /\ opens E e raw CT_ALERT ep sq (lvl :: 0 :: rest).
Lemma close_alert_same pk a b : same_keys12 a b -> close_alert pk a -> close_alert pk b.
Proof. intros S (raw & ep & sq & lvl & rest & H1 & H2). exists raw, ep, sq, lvl, rest. split; [exact H1|eapply opens_same; eauto]. Qed.

(** Classification keeps a sublist and may note a close_notify. *)
Definition noted (a b : Eng12) : Prop := b = a \/ b = set_en_cn_recv true a.
Lemma classify_high pk seen seen' e0 r e : en_penc e = true -> fresh pk seen seen' e0 r -> 
  wp (classify_record r) (fun o e' => (match o with Ok (Some r') => r' = r | _ => True end) /\
    (e' = e \/ (e' = set_en_cn_recv true e /\ close_alert pk e0))) e.
Proof.
  intros Pe Fr. unfold classify_record. apply wp_bind, wp_get. rewrite Pe. cbn [negb].
  destruct (_ && _ && true); [apply wp_ret; auto|].
  destruct (_ && _); [apply wp_ret; auto|].
  destruct (N.eqb_spec (r_ctype r) CT_ALERT) as [Ha|Ha].
  - destruct (N.eqb_spec (r_epoch r) 0) as [E0|E0]; [apply wp_ret; auto|].
    destruct (r_frag r) as [|lvl [|desc rest]] eqn:Hf; [apply wp_ret; auto..|].
    destruct (N.eqb_spec desc 0) as [->|Hd].
    + apply wp_bind, wp_modify, wp_ret. split; [exact I|right]. split; [reflexivity|].
      destruct Fr as [_ [(Fr & _)|((raw & H1 & H2) & _)]]; [contradiction|]. rewrite Ha, Hf in H2. unfold close_alert. eauto 10.
    + destruct (lvl =? 2); [apply wp_fail|apply wp_ret]; auto.
  - destruct (_ && _); apply wp_ret; auto.
Qed.
Lemma classify_all_high pk seen seen' e0 rs : forall e, en_penc e = true -> Forall (fresh pk seen seen' e0) rs ->
  wp (classify_all rs) (fun o e' => (match o with Ok rs' => sub rs' rs | _ => True end) /\
    (e' = e \/ (e' = set_en_cn_recv true e /\ close_alert pk e0))) e.
Proof.
  induction rs as [|r rs IH]; intros e Pe F; cbn [classify_all]; [apply wp_ret; split; [constructor|auto]|].
  inversion F as [|? ? F1 F2]; subst. apply wp_bind. eapply wp_mono; [apply (classify_high pk seen seen' e0 r e Pe F1)|].
  cbv beta. intros o e1 [H1 H2]. assert (Pe1 : en_penc e1 = true) by (destruct H2 as [->|[-> _]]; exact Pe).
  destruct o as [o|x|x]; [|auto..].
  apply wp_bind. eapply wp_mono; [apply (IH e1 Pe1 F2)|]. cbv beta. intros o' e2 [H3 H4].
  assert (H5 : e2 = e \/ (e2 = set_en_cn_recv true e /\ close_alert pk e0)).
  { destruct H2 as [->|[-> C]]; [exact H4|right]. split; [|exact C]. destruct H4 as [->|[-> _]]; reflexivity. }
  destruct o' as [rs'|x|x]; [|auto..]. apply wp_ret. split; [|exact H5].
  destruct o as [r'|]; [subst r'; apply sub_take, H3|apply sub_skip, H3].
Qed.

(** Inserting a datagram's records. *)
Definition quiet (a b : Eng12) : Prop := moved a b /\ en_replay b = en_replay a.
Lemma quiet_po : preorder quiet.
Proof. split; [intro; split; [apply moved_refl|reflexivity]|]. intros a b c [A1 A2] [B1 B2]. split; [eapply moved_trans; eauto|congruence]. Qed.
Ltac qpre := first [exact quiet_po | solve [intros; repeat split]].

Definition inserted (inc : list Rec12) (a b : Eng12) : Prop :=
  quiet a b \/ exists i inc', quiet (set_en_rx (insert_at i inc' (en_rx a)) a) b /\ (inc' = inc \/ inc' = map mark_plain_hs inc).
Lemma insert_spec inc e : wp (insert_incoming E inc) (fun _ e' => inserted inc e e') e.
Proof.
  assert (Q0 : quiet e e) by apply quiet_po.
  unfold insert_incoming. apply wp_bind, wp_get. destruct (_ <=? _); [apply wp_fail; left; exact Q0|].
  destruct inc as [|r rest]; [apply wp_ret; left; exact Q0|]. set (inc := r :: rest) in *.
  assert (Ins : forall a i inc', quiet e a -> (inc' = inc \/ inc' = map mark_plain_hs inc) -> inserted inc e (set_en_rx (insert_at i inc' (en_rx a)) a)).
  { intros a i inc' [(A1 & A2 & A3 & A4 & (S1 & S2 & S3 & S4 & S5)) A5] H. right. exists i, inc'. split; [|exact H].
    rewrite <- A1. repeat split; assumption. }
  destruct (first_hs r) as [h|].
  - unfold insert_incoming_handshake. apply wp_bind, wp_get. cbv zeta. apply wp_bind.
    assert (Hre : pres quiet (match first_some (fun r0 => match first_hs r0 with Some h => dupe_triggers_resend h | None => None end) inc with
      | Some d => when ((d <? en_peer_hs e) && negb (en_confirmed e)) (flight_resend E) | None => ret tt end)).
    { destruct (first_some _ _); [|apply (pres_ret _ quiet_po)]. unfold when. destruct (_ && _); [|apply (pres_ret _ quiet_po)]. apply fr_flight_resend; qpre. }
    eapply wp_mono; [apply (wp_pres quiet _ _ Hre)|]. cbv beta. intros o e1 Q1. destruct o; [|left; exact Q1..].
    destruct (_ <? _); [apply wp_ret; left; exact Q1|]. destruct (_ && _); [apply wp_ret; left; exact Q1|].
    destruct (_ && _); [apply wp_fail; left; exact Q1|].
    apply wp_bind. eapply wp_mono; [apply (wp_pres quiet), (fr_bsearch E); qpre|]. cbv beta. intros o e2 Q2.
    pose proof (po_trans _ quiet_po _ _ _ Q1 Q2) as Q3. destruct o as [[found i]|x|x]; [|left; exact Q3..].
    destruct found; [apply wp_ret; left; exact Q3|]. apply wp_modify. apply Ins; auto.
  - unfold insert_incoming_non_handshake. apply wp_bind, wp_get. destruct (_ && _); [apply wp_ret; left; exact Q0|]. cbv zeta.
    apply wp_bind. eapply wp_mono; [apply (wp_pres quiet), (fr_bsearch E); qpre|]. cbv beta. intros o e2 Q3.
    destruct o as [[found i]|x|x]; [|left; exact Q3..].
    destruct found; [destruct (_ =? _); [apply wp_ret|apply wp_panic]; left; exact Q3|]. apply wp_modify. apply Ins; [exact Q3|].
    destruct (en_penc e); auto.
Qed.

(** ** The invariant *)

Definition app_data (os : list Output) : list bytes :=
  flat_map (fun o => match o with OAppData d => [d] | _ => [] end) os.
Lemma app_data_app a b : app_data (a ++ b) = app_data a ++ app_data b.
Proof. apply flat_map_app. Qed.

Definition item_ok (pk : list bytes) (e : Eng12) (x : N * bytes) : Prop :=
  exists raw, record_in pk raw /\ opens E e raw CT_APP 1 (fst x) (snd x).
Definition high (pk : list bytes) (os : list Output) (seen : list N) (D : list (N * bytes)) (e : Eng12) : Prop :=
  map snd D = app_data os /\ window_inv (en_replay e) seen /\
  Forall (fun r => from pk seen (r_buf r)) (concat (en_rx e)) /\
  Forall (item_ok pk e) (D ++ app_items (en_rx e)) /\
  NoDup (map fst (D ++ app_items (en_rx e))) /\ incl (map fst (D ++ app_items (en_rx e))) seen /\
  (en_cn_recv e = true -> close_alert pk e) /\ (en_release e = false -> D = []).
Definition low (pk : list bytes) (os : list Output) (e : Eng12) : Prop :=
  en_replay e = window_new /\ en_cn_recv e = false /\ app_data os = [] /\
  Forall (fun r => record_in pk (r_buf r) /\ exists r0, p_parsed12 0 (r_buf r) = Some r0 /\
    r_ctype r = r_ctype r0 /\ r_epoch r = r_epoch r0) (concat (en_rx e)).
Definition rxl (pk : list bytes) (os : list Output) (e : Eng12) : Prop :=
  good pk -> if en_penc e then exists seen D, high pk os seen D e else low pk os e.

Lemma item_same pk a b x : same_keys12 a b -> item_ok pk a x -> item_ok pk b x.
Proof. intros S (raw & H1 & H2). exists raw. split; [exact H1|eapply opens_same; eauto]. Qed.

Lemma sub_Forall {A} (P : A -> Prop) a b : sub a b -> Forall P b -> Forall P a.
Proof. induction 1; intro F; [exact F|inversion F; auto|inversion F; constructor; auto]. Qed.
Lemma sub_map {A B} (f : A -> B) a b : sub a b -> sub (map f a) (map f b).
Proof. induction 1; cbn; constructor; assumption. Qed.
Lemma sub_incl {A} (a b : list A) : sub a b -> incl a b.
Proof. induction 1; [apply incl_refl|apply incl_tl; assumption|apply incl_cons; [left; reflexivity|apply incl_tl; assumption]]. Qed.
Lemma sub_NoDup {A} (a b : list A) : sub a b -> NoDup b -> NoDup a.
Proof.
  induction 1 as [|x a b H IH|x a b H IH]; intro N0; [exact N0|inversion N0; auto|].
  inversion N0 as [|? ? N1 N2]; subst. constructor; [|auto]. intro K. apply N1. apply (sub_incl _ _ H), K.
Qed.

Lemma high_Rq pk os seen D a b : Rq a b -> same_keys12 a b -> high pk os seen D a -> high pk os seen D b.
Proof.
  intros (Q1 & Q2 & Q3 & Q4 & Q5) S (H1 & H2 & H3 & H4 & H5 & H6 & H7 & H8).
  pose proof (wk_items _ _ Q1) as Si. fold (app_items (en_rx b)) (app_items (en_rx a)) in Si.
  assert (SD : sub (D ++ app_items (en_rx b)) (D ++ app_items (en_rx a))) by (apply sub_app; [apply sub_refl|exact Si]).
  split; [exact H1|]. split; [rewrite Q2; exact H2|]. split.
  { eapply wk_Forall; [|exact Q1|exact H3]. intros r' r (_ & _ & _ & _ & W & _). rewrite W. auto. }
  split; [eapply Forall_impl; [intros x Hx; eapply item_same; [exact S|exact Hx]|eapply sub_Forall; eauto]|].
  split; [eapply sub_NoDup; [apply sub_map; exact SD|exact H5]|].
  split; [eapply incl_tran; [apply sub_incl, sub_map, SD|exact H6]|].
  split; [rewrite Q3; intro; eapply close_alert_same; eauto|]. intro Hr. apply H8. destruct (en_release a); [rewrite Q5 in Hr by reflexivity; discriminate|reflexivity].
Qed.
Lemma low_Rq pk os a b : Rq a b -> low pk os a -> low pk os b.
Proof.
  intros (Q1 & Q2 & Q3 & Q4 & Q5) (H1 & H2 & H3 & H4). split; [congruence|]. split; [congruence|]. split; [exact H3|].
  eapply wk_Forall; [|exact Q1|exact H4]. intros r' r (W1 & W2 & _ & _ & W3 & _). rewrite W1, W2, W3. auto.
Qed.
Lemma rxl_Rq pk os a b : Rq a b -> same_keys12 a b -> rxl pk os a -> rxl pk os b.
Proof.
  intros Q S H G. specialize (H G). pose proof Q as (_ & _ & _ & P & _). rewrite P. destruct (en_penc a).
  - destruct H as (seen & D & H). exists seen, D. eapply high_Rq; eauto.
  - eapply low_Rq; eauto.
Qed.
Lemma rxl_Rq_low pk os a b : Rq a b -> en_penc a = false -> rxl pk os a -> rxl pk os b.
Proof.
  intros Q P H G. specialize (H G). pose proof Q as (_ & _ & _ & P' & _). rewrite P', P. rewrite P in H. eapply low_Rq; eauto.
Qed.

Lemma plain_weaker r : weaker (mark_plain_hs r) r.
Proof.
  unfold mark_plain_hs. destruct (_ && _); [|apply weaker_refl]. destruct (r_hs r) as [|f l] eqn:Hh; [apply handled_weaker|].
  destruct r. cbn in Hh. subst. unfold set_r_hs, rec_handled. cbn. repeat split. intros _. clear. induction l; cbn; auto.
Qed.
Lemma map_plain_wk l : wk (map mark_plain_hs l) l.
Proof. induction l; cbn [map]; constructor; auto using plain_weaker. Qed.

Lemma concat_insert {A} i (x : list A) q : Permutation (concat (insert_at i x q)) (x ++ concat q).
Proof.
  unfold insert_at. rewrite concat_app. cbn [concat]. rewrite <- (firstn_skipn i q) at 3. rewrite concat_app.
  rewrite !app_assoc. apply Permutation_app_tail. apply Permutation_app_comm.
Qed.
Lemma filter_perm {A} (f : A -> bool) l l' : Permutation l l' -> Permutation (filter f l) (filter f l').
Proof.
  induction 1; cbn [filter]; auto.
  - destruct (f x); auto.
  - destruct (f x), (f y); auto. apply perm_swap.
  - eapply Permutation_trans; eauto.
Qed.
Lemma items_insert i x q : Permutation (app_items (insert_at i x q)) (map app_item (filter unhandled_app x) ++ app_items q).
Proof.
  unfold app_items. rewrite <- map_app, <- filter_app. apply Permutation_map, filter_perm, concat_insert.
Qed.
Lemma Forall_perm {A} (P : A -> Prop) a b : Permutation a b -> Forall P b -> Forall P a.
Proof. intros H F. eapply Permutation_Forall; [apply Permutation_sym, H|exact F]. Qed.

Lemma opened_app_epoch pk e r : good pk -> r_ctype r = CT_APP -> r_epoch r <> 0 -> opened pk e r -> item_ok pk e (app_item r).
Proof.
  intros [_ G] C Z (raw & H1 & H2). exists raw. split; [exact H1|]. unfold app_item. cbn [fst snd].
  destruct H2 as (r0 & iv & nonce & A1 & A2 & A3 & A4 & A5). pose proof (G raw r0 H1 A1 ltac:(congruence)) as L.
  assert (Hep : r_epoch r = 1) by lia. rewrite Hep, C in *. exists r0, iv, nonce. rewrite A2, A3, A4. auto 10.
Qed.

Lemma parse_high pk os seen D p e : good pk -> from pk seen p -> en_penc e = true -> linked E e -> high pk os seen D e ->
  wp (eng12_parse_packet E p) (fun _ e' => exists seen', incl seen seen' /\ high pk os seen' D e') e.
Proof.
  intros G Src Pe Li (H1 & H2 & H3 & H4 & H5 & H6 & H7 & H8). unfold eng12_parse_packet, records_parse. apply wp_bind, wp_bind.
  eapply wp_mono; [apply (parse_loop_high pk _ _ p seen e G Src Pe Li H2)|]. cbv beta. intros o e1 (s1 & I1 & W1 & M1 & L1).
  destruct M1 as (M1 & M2 & M3 & M4 & M5).
  assert (High1 : high pk os s1 D e1).
  { split; [exact H1|]. split; [exact W1|]. rewrite M1, M2, M4. split; [eapply Forall_impl; [|exact H3]; cbv beta; intros; eapply from_incl; eauto|].
    split; [eapply Forall_impl; [|exact H4]; intros; eapply item_same; eauto|]. split; [exact H5|]. split; [eapply incl_tran; eauto|].
    split; [intro; eapply close_alert_same; eauto|exact H8]. }
  assert (Pe1 : en_penc e1 = true) by congruence.
  pose proof H6 as Old. rewrite <- M1 in Old. clear H1 H2 H3 H4 H5 H6 H7 H8. destruct o as [rs|x|x]; [|exists s1; auto..].
  destruct L1 as [L1 N1]. eapply wp_mono; [apply (classify_all_high pk seen s1 e rs e1 Pe1 L1)|]. cbv beta.
  intros o e2 [S2 E2].
  assert (High2 : high pk os s1 D e2 /\ same_keys12 e e2 /\ en_rx e2 = en_rx e1).
  { destruct E2 as [->|[-> C]]; [split; [exact High1|split; [exact M5|reflexivity]]|]. split; [|split; [exact M5|reflexivity]]. destruct High1 as (H1 & H2 & H3 & H4 & H5 & H6 & H7 & H8).
    refine (conj H1 (conj H2 (conj H3 (conj _ (conj H5 (conj H6 (conj _ H8))))))).
    - eapply Forall_impl; [|exact H4]. intros x Hx. eapply item_same; [|exact Hx]. repeat split.
    - intros _. eapply close_alert_same; [|exact C]. exact M5. }
  destruct High2 as (High2 & M6 & X2). rewrite <- X2 in Old. clear High1 E2 X2. destruct o as [rs'|x|x]; [|exists s1; auto..].
  assert (L2 : Forall (fresh pk seen s1 e2) rs').
  { eapply sub_Forall; [exact S2|]. eapply Forall_impl; [|exact L1]. intros r Hr. eapply fresh_same; eauto. }
  destruct rs' as [|r0 rest]; [apply wp_ret; exists s1; auto|]. set (rs' := r0 :: rest) in *. clearbody rs'. clear r0 rest.
  eapply wp_mono; [apply insert_spec|]. cbv beta. intros o e3 I3. exists s1. split; [exact I1|].
  assert (Qh : forall a b, quiet a b -> high pk os s1 D a -> high pk os s1 D b).
  { intros a b [(A1 & A2 & A3 & A4 & A5) A6]. apply high_Rq; [|exact A5]. unfold Rq. rewrite A1, A2, A3, A4, A6. repeat split; auto. apply wk_refl. }
  destruct I3 as [Q|(i & inc & Q & Hinc)]; [eapply Qh; eauto|]. eapply Qh; [exact Q|]. clear Qh Q.
  destruct High2 as (H1 & H2 & H3 & H4 & H5 & H6 & H7 & H8).
  assert (Wk : wk inc rs') by (destruct Hinc as [-> | ->]; [apply wk_refl|apply map_plain_wk]).
  set (new := map app_item (filter unhandled_app inc)).
  assert (Snew : sub new (map app_item (filter unhandled_app rs'))) by apply wk_items, Wk.
  assert (Hnew : Forall (fun x => item_ok pk e2 x /\ ~ In (fst x) seen /\ In (fst x) s1) (map app_item (filter unhandled_app rs'))).
  { apply Forall_map. apply Forall_forall. intros r Hr. apply filter_In in Hr. destruct Hr as [Hr Hu].
    rewrite Forall_forall in L2. destruct (L2 r Hr) as [_ F]. unfold unhandled_app, is_app in Hu. apply andb_prop in Hu. destruct Hu as [Hu _].
    apply N.eqb_eq in Hu. destruct F as [(_ & F)|(F1 & F2 & F3 & F4)]; [contradiction|].
    split; [apply opened_app_epoch; auto|]. unfold app_item. cbn [fst]. auto. }
  assert (Nnew : NoDup (map fst new)).
  { eapply sub_NoDup; [apply sub_map, Snew|]. rewrite map_map. unfold app_item. cbn [fst].
    eapply sub_NoDup; [|exact N1]. apply sub_map. clear -S2 L2. revert L2. induction S2 as [|x a b S IH|x a b S IH]; intro L2; cbn [filter]; [constructor|..].
    - destruct (negb _); [apply sub_skip|]; auto.
    - inversion L2 as [|? ? F1 F2]; subst. specialize (IH F2). destruct (unhandled_app x) eqn:Hu.
      + destruct F1 as [_ [(_ & F1)|(_ & F1 & _)]].
        * exfalso. apply F1. unfold unhandled_app, is_app in Hu. apply andb_prop in Hu. destruct Hu as [Hu _]. apply N.eqb_eq in Hu. exact Hu.
        * apply N.eqb_neq in F1. rewrite F1. apply sub_take, IH.
      + destruct (negb _); [apply sub_skip|]; exact IH. }
  assert (Fnew : Forall (fun x => item_ok pk e2 x /\ ~ In (fst x) seen /\ In (fst x) s1) new) by (eapply sub_Forall; eauto).
  unfold high. cbn [en_rx en_replay en_cn_recv en_release set_en_rx].
  pose proof (items_insert i inc (en_rx e2)) as P. fold new in P.
  assert (P' : Permutation (D ++ app_items (insert_at i inc (en_rx e2))) (new ++ D ++ app_items (en_rx e2))).
  { eapply Permutation_trans; [apply Permutation_app_head, P|]. rewrite !app_assoc. apply Permutation_app_tail, Permutation_app_comm. }
  split; [exact H1|]. split; [exact H2|]. split.
  { eapply Forall_perm; [apply concat_insert|]. apply Forall_app. split; [|exact H3].
    eapply wk_Forall; [|exact Wk|]; [intros r' r (_ & _ & _ & _ & W & _); rewrite W; auto|].
    eapply Forall_impl; [|exact L2]. intros r [F _]. exact F. }
  split.
  { eapply Forall_perm; [exact P'|]. apply Forall_app. split; [|exact H4]. eapply Forall_impl; [|exact Fnew]. cbv beta. intros x (F & _).
    eapply item_same; [|exact F]. repeat split. }
  split.
  { eapply Permutation_NoDup; [apply Permutation_sym, Permutation_map, P'|]. rewrite map_app.
    clear -Nnew H5 Fnew Old. induction new as [|x new IH]; cbn [map app]; [exact H5|].
    cbn [map] in Nnew. inversion Nnew; subst. inversion Fnew as [|? ? (F1 & F2 & F3) F4]; subst. constructor; [|auto].
    intro K. apply in_app_or in K. destruct K as [K|K]; [contradiction|]. apply F2, Old, K. }
  split.
  { intros n Hn. apply (Permutation_in _ (Permutation_map fst P')) in Hn. rewrite map_app in Hn. apply in_app_or in Hn. destruct Hn as [Hn|Hn]; [|apply H6, Hn].
    apply in_map_iff in Hn. destruct Hn as (x & <- & Hx). rewrite Forall_forall in Fnew. apply Fnew, Hx. }
  split; [|exact H8]. intro C. eapply close_alert_same; [|apply H7, C]. repeat split.
Qed.

(** ** Before protection is on *)

Definition unopened (pk : list bytes) (r : Rec12) : Prop :=
  record_in pk (r_buf r) /\ exists r0, p_parsed12 0 (r_buf r) = Some r0 /\ r_ctype r = r_ctype r0 /\ r_epoch r = r_epoch r0.
Lemma unopened_weaker pk r' r : weaker r' r -> unopened pk r -> unopened pk r'.
Proof. intros (W1 & W2 & _ & _ & W3 & _). unfold unopened. rewrite W1, W2, W3. auto. Qed.

Lemma record_of_refl p raw : record_of p raw -> record_of raw raw.
Proof.
  intro H. destruct (record_of_self _ _ H) as [A B]. pose proof (record_here _ A ltac:(rewrite B; apply Nat.le_refl)) as X.
  rewrite B, firstn_all in X. exact X.
Qed.

Lemma rec_parse_low pk raw e : record_in pk raw -> en_penc e = false ->
  wp (rec_parse E raw) (fun o e' => e' = e /\ match o with Ok (Some r) => unopened pk r | _ => True end) e.
Proof.
  intros H P. unfold rec_parse. destruct (p_parsed12 0 raw) as [r|] eqn:Hp; [|apply wp_ret; auto].
  apply wp_bind, wp_get. rewrite P, orb_true_r. apply wp_ret. split; [reflexivity|].
  destruct (parsed_buf _ _ _ Hp) as [Hb _]. unfold unopened. rewrite Hb. split; [exact H|]. exists r. auto.
Qed.
Lemma parse_loop_low pk fuel : forall room p e, (forall raw, record_of p raw -> record_in pk raw) -> en_penc e = false ->
  wp (parse_loop E fuel room p) (fun o e' => e' = e /\ match o with Ok rs => Forall (unopened pk) rs | _ => True end) e.
Proof.
  induction fuel as [|fuel IH]; intros room p e Src Pe; cbn [parse_loop]; destruct p as [|b p];
    try (apply wp_ret; split; [reflexivity|constructor]); try (apply wp_panic; auto).
  set (q := b :: p) in *. clearbody q. clear b p.
  destruct (Nat.ltb_spec (length q) HEADER_LEN) as [H1|H1]; [apply wp_fail; auto|]. cbv zeta. unfold HEADER_LEN in *.
  change ((13 + N.to_nat (unbe (firstn 2 (skipn 11 q))))%nat) with (cut q).
  destruct (Nat.ltb_spec (length q) (cut q)) as [H2|H2]; [apply wp_fail; auto|].
  assert (Rof : record_of q (firstn (cut q) q)) by (constructor; assumption).
  assert (Src' : forall raw, record_of (skipn (cut q) q) raw -> record_in pk raw) by (intros; apply Src; apply record_next; assumption).
  apply wp_bind. eapply wp_mono; [apply (rec_parse_low pk); auto|]. cbv beta. intros o e1 [-> U].
  destruct o as [[r|]|x|x]; [| |auto..].
  - destruct room as [|room]; [apply wp_fail; auto|]. apply wp_bind. eapply wp_mono; [apply (IH room _ e Src' Pe)|]. cbv beta.
    intros o e2 [-> U2]. destruct o; [|auto..]. apply wp_ret. auto.
  - apply (IH room _ e Src' Pe).
Qed.
Lemma classify_all_low rs : forall e, en_penc e = false ->
  wp (classify_all rs) (fun o e' => e' = e /\ match o with Ok rs' => sub rs' rs | _ => True end) e.
Proof.
  induction rs as [|r rs IH]; intros e Pe; cbn [classify_all]; [apply wp_ret; split; [reflexivity|constructor]|].
  apply wp_bind. apply (wp_mono _ (fun o e' => e' = e /\ match o with Ok (Some r') => r' = r | _ => True end)).
  { unfold classify_record. apply wp_bind, wp_get. rewrite Pe, !andb_false_r. cbn [negb andb].
    destruct (_ =? _).
    - destruct (_ =? _); [|apply wp_ret; auto]. destruct (r_frag r) as [|lvl [|desc rest]]; [apply wp_ret; auto..|].
      destruct (_ =? _); [apply wp_fail|apply wp_ret]; auto.
    - destruct (_ && _); apply wp_ret; auto. }
  intros o e1 [-> H]. destruct o as [o|x|x]; [|auto..].
  apply wp_bind. eapply wp_mono; [apply (IH e Pe)|]. cbv beta. intros o' e2 [-> H2]. destruct o' as [rs'|x|x]; [|auto..].
  apply wp_ret. split; [reflexivity|]. destruct o; [subst; apply sub_take|apply sub_skip]; exact H2.
Qed.

Lemma parse_low pk os p e : (forall raw, record_of p raw -> record_in pk raw) -> en_penc e = false -> low pk os e ->
  wp (eng12_parse_packet E p) (fun _ e' => low pk os e') e.
Proof.
  intros Src Pe L. unfold eng12_parse_packet, records_parse. apply wp_bind, wp_bind.
  eapply wp_mono; [apply (parse_loop_low pk _ _ p e Src Pe)|]. cbv beta. intros o e1 [-> U].
  destruct o as [rs|x|x]; [|exact L..]. eapply wp_mono; [apply (classify_all_low rs e Pe)|]. cbv beta. intros o e1 [-> U2].
  destruct o as [rs'|x|x]; [|exact L..]. destruct rs' as [|r0 rest]; [apply wp_ret; exact L|]. set (rs' := r0 :: rest) in *. clearbody rs'. clear r0 rest.
  assert (U3 : Forall (unopened pk) rs') by (eapply sub_Forall; eauto).
  eapply wp_mono; [apply insert_spec|]. cbv beta. intros o e3 I3.
  assert (Ql : forall a b, quiet a b -> low pk os a -> low pk os b).
  { intros a b [(A1 & A2 & A3 & A4 & A5) A6]. apply low_Rq. unfold Rq. rewrite A1, A2, A3, A4, A6. repeat split; auto. apply wk_refl. }
  destruct I3 as [Q|(i & inc & Q & Hinc)]; [eapply Ql; eauto|]. eapply Ql; [exact Q|].
  destruct L as (L1 & L2 & L3 & L4). refine (conj L1 (conj L2 (conj L3 _))).
  eapply Forall_perm; [apply concat_insert|]. apply Forall_app. split; [|exact L4].
  eapply (wk_Forall (unopened pk)); [apply unopened_weaker| |exact U3]. destruct Hinc as [-> | ->]; [apply wk_refl|apply map_plain_wk].
Qed.

(** ** Turning protection on *)

Lemma split_keep q : forall a b, split_epoch1 q = (a, b) -> Forall (fun r => r_epoch r <> 1) (concat a).
Proof.
  induction q as [|inc q IH]; cbn [split_epoch1]; intros a b; [intros [= <- <-]; constructor|].
  destruct (existsb _ inc) eqn:Hx; [intros [= <- <-]; constructor|].
  destruct (split_epoch1 q) as [a' b']. intros [= <- <-]. cbn [concat]. apply Forall_app. split; [|eapply IH; reflexivity].
  apply Forall_forall. intros r Hr He. assert (existsb (fun r => r_epoch r =? 1) inc = true) by (apply existsb_exists; exists r; rewrite He; auto).
  congruence.
Qed.

Lemma iter_high pk os D rs : good pk -> forall seen e, Forall (fun r => from pk seen (r_buf r)) rs ->
  en_penc e = true -> linked E e -> high pk os seen D e ->
  wp (iterM (fun r => eng12_parse_packet E (r_buf r)) rs) (fun _ e' => exists seen', high pk os seen' D e') e.
Proof.
  intros G. induction rs as [|r rs IH]; intros seen e F Pe Li H; cbn [iterM]; [apply wp_ret; eauto|].
  inversion F as [|? ? F1 F2]; subst. apply wp_bind.
  eapply wp_mono; [apply (wp_conj _ _ _ _ (parse_high pk os seen D (r_buf r) e G F1 Pe Li H) (wp_pres sk_penc _ _ (skp_parse E (r_buf r))))|].
  cbv beta. intros o e1 [(s1 & I1 & H1) (S1 & P1)]. destruct o; [|eauto..].
  apply (IH s1 e1); [eapply Forall_impl; [|exact F2]; cbv beta; intros; eapply from_incl; eauto|congruence|eapply sk_linked; eauto|exact H1].
Qed.

Lemma enable_rxl pk os e : linked E e -> en_release e = false \/ en_penc e = true -> rxl pk os e ->
  wp (enable_peer_encryption E) (fun _ e' => rxl pk os e') e.
Proof.
  intros Li Rel H. unfold enable_peer_encryption. apply wp_bind, wp_modify, wp_bind, wp_get.
  change (en_rx (set_en_penc true e)) with (en_rx e).
  destruct (split_epoch1 (en_rx e)) as [keep again] eqn:Hs. pose proof (split_epoch1_app _ _ _ Hs) as Hq. pose proof (split_keep _ _ _ Hs) as Hk.
  apply wp_bind, wp_modify.
  set (e1 := set_en_rx keep (set_en_penc true e)).
  assert (Pe1 : en_penc e1 = true) by reflexivity. assert (Li1 : linked E e1) by exact Li.
  assert (Li2 : same_keys12 e e1) by (repeat split).
  assert (X : good pk -> exists seen D, high pk os seen D e1 /\ Forall (fun r => from pk seen (r_buf r)) (concat again)).
  { intros G. specialize (H G). destruct (en_penc e) eqn:Pe.
    - destruct H as (seen & D & H). exists seen, D. pose proof H as (_ & _ & H3 & _). rewrite Hq, concat_app in H3. apply Forall_app in H3. destruct H3 as [H3 H3'].
      split; [|exact H3']. eapply high_Rq; [|exact Li2|exact H]. unfold Rq, e1. cbn. rewrite Pe. repeat split; auto.
      rewrite Hq, concat_app. rewrite <- (app_nil_r (concat keep)) at 1. apply wk_app; [apply wk_refl|apply wk_nil].
    - destruct Rel as [Rel|Rel]; [|discriminate]. destruct H as (L1 & L2 & L3 & L4). exists [], []. rewrite Hq, concat_app in L4. apply Forall_app in L4. destruct L4 as [L4 L5].
      assert (Fr : forall r, unopened pk r -> from pk [] (r_buf r)).
      { intros r [(p & Hp & U) _] raw Hr. left. rewrite (record_of_record _ _ _ U Hr). exists p. auto. }
      split; [|eapply Forall_impl; [|exact L5]; intros r Hr; apply Fr, Hr].
      assert (Hi : app_items (en_rx e1) = []).
      { unfold app_items, e1. cbn [en_rx set_en_rx]. destruct (filter unhandled_app (concat keep)) as [|r l] eqn:Hf; [reflexivity|exfalso].
        assert (Hin : In r (filter unhandled_app (concat keep))) by (rewrite Hf; left; reflexivity). apply filter_In in Hin. destruct Hin as [Hin Hu].
        rewrite Forall_forall in L4, Hk. destruct (L4 r Hin) as (R1 & r0 & R2 & R3 & R4). specialize (Hk r Hin).
        unfold unhandled_app, is_app in Hu. apply andb_prop in Hu. destruct Hu as [Hu _]. apply N.eqb_eq in Hu.
        destruct G as [_ G]. specialize (G _ _ R1 R2 ltac:(congruence)). rewrite <- R4 in G.
        apply (epoch0_not_app _ _ R2); [lia|congruence]. }
      unfold high. rewrite Hi. cbn [app map]. unfold e1. cbn [en_replay en_cn_recv en_release set_en_rx set_en_penc en_rx]. rewrite L1, L2, L3.
      split; [reflexivity|]. split; [apply window_inv_new|]. split; [eapply Forall_impl; [|exact L4]; intros r Hr; apply Fr, Hr|].
      split; [constructor|]. split; [constructor|]. split; [intros x []|]. split; [discriminate|reflexivity]. }
  apply wp_intro. intros o e2 Ho G. destruct (X G) as (seen & D & H1 & F).
  assert (F' : Forall (fun r => from pk seen (r_buf r)) (filter (fun r => negb (rec_handled r)) (concat again))).
  { apply Forall_forall. intros r Hr. apply filter_In in Hr. rewrite Forall_forall in F. apply F, Hr. }
  pose proof (wp_run _ _ _ _ _ Ho (iter_high pk os D _ G seen e1 F' Pe1 Li1 H1)) as (s2 & H2).
  assert (P2 : en_penc e2 = true).
  { pose proof (pres_iterM (pe) (pe_po) (fun r => eng12_parse_packet E (r_buf r)) (filter (fun r => negb (rec_handled r)) (concat again))
      ltac:(intro; apply fr_parse_packet; first [exact pe_po|intros; reflexivity]) e1) as W. rewrite Ho in W. exact W. }
  rewrite P2. eauto.
Qed.

(** ** Polling *)

Lemma mark_done_id l : map_acc (mark_rec unhandled_app) true l = (l, true).
Proof. induction l as [|r l IH]; cbn [map_acc]; [reflexivity|]. unfold mark_rec at 1. rewrite IH. reflexivity. Qed.
Lemma mark_done_id2 q : map_acc (map_acc (mark_rec unhandled_app)) true q = (q, true).
Proof. induction q as [|l q IH]; cbn [map_acc]; [reflexivity|]. rewrite mark_done_id, IH. reflexivity. Qed.
Lemma handled_app r : r_hs r = [] -> unhandled_app (set_r_handled true r) = false.
Proof. destruct r. cbn. intros ->. unfold unhandled_app, rec_handled. cbn. apply andb_false_r. Qed.
Lemma mark_first_row l : 
  match find unhandled_app l with
  | Some r => r_hs r = [] -> exists l', map_acc (mark_rec unhandled_app) false l = (l', true) /\
      filter unhandled_app l = r :: filter unhandled_app l'
  | None => map_acc (mark_rec unhandled_app) false l = (l, false) /\ filter unhandled_app l = []
  end.
Proof.
  induction l as [|x l IH]; cbn [find map_acc filter]; [auto|].
  assert (Hm : mark_rec unhandled_app false x = if unhandled_app x then (set_r_handled true x, true) else (x, false)) by reflexivity.
  rewrite Hm. clear Hm. destruct (unhandled_app x) eqn:Hx.
  - intro Hh. rewrite mark_done_id. eexists. split; [reflexivity|]. cbn [filter]. rewrite (handled_app x Hh). reflexivity.
  - destruct (find unhandled_app l) as [r|].
    + intro Hh. destruct (IH Hh) as (l' & -> & ->). eexists. split; [reflexivity|]. cbn [filter]. rewrite Hx. reflexivity.
    + destruct IH as [-> ->]. split; reflexivity.
Qed.
Lemma find_app {A} (f : A -> bool) a b : find f (a ++ b) = match find f a with Some x => Some x | None => find f b end.
Proof. induction a as [|x a IH]; cbn; [reflexivity|]. destruct (f x); auto. Qed.
Lemma mark_first_items q r : find unhandled_app (concat q) = Some r -> r_hs r = [] ->
  app_items q = app_item r :: app_items (mark_first unhandled_app q).
Proof.
  intros Hf Hh. unfold app_items, mark_first.
  assert (X : filter unhandled_app (concat q) = r :: filter unhandled_app (concat (fst (map_acc (map_acc (mark_rec unhandled_app)) false q)))).
  { revert Hf. induction q as [|l q IH]; cbn [concat map_acc]; [discriminate|]. rewrite find_app, filter_app.
    pose proof (mark_first_row l) as M. destruct (find unhandled_app l) as [r'|].
    - intros [= ->]. destruct (M Hh) as (l' & -> & ->). rewrite mark_done_id2. cbn [fst concat app]. rewrite filter_app. reflexivity.
    - intro Hf. specialize (IH Hf). destruct M as [-> M]. rewrite M. cbn [app].
      destruct (map_acc (map_acc (mark_rec unhandled_app)) false q) as [q' b]. cbn [fst concat] in *. rewrite filter_app, M. exact IH. }
  rewrite X. reflexivity.
Qed.

Lemma rxl_output pk os o e : app_data [o] = [] -> rxl pk os e -> rxl pk (os ++ [o]) e.
Proof.
  intros Ho H G. specialize (H G). destruct (en_penc e).
  - destruct H as (seen & D & (H1 & H2)). exists seen, D. split; [|exact H2]. rewrite app_data_app, Ho, app_nil_r. exact H1.
  - destruct H as (L1 & L2 & L3 & L4). split; [exact L1|]. split; [exact L2|]. split; [|exact L4]. rewrite app_data_app, Ho, app_nil_r. exact L3.
Qed.
Lemma rxl_outputs pk os l e : app_data l = [] -> rxl pk os e -> rxl pk (os ++ l) e.
Proof.
  revert os. induction l as [|o l IH]; intros os Hl H; [rewrite app_nil_r; exact H|].
  change (o :: l) with ([o] ++ l) in Hl |- *. rewrite app_data_app in Hl. apply app_eq_nil in Hl. destruct Hl as [H1 H2].
  rewrite app_assoc. apply IH; [exact H2|]. apply rxl_output; assumption.
Qed.

Lemma poll_rxl pk os cap now e : (en_release e = true -> en_penc e = true) -> rxl pk os e ->
  wp (eng12_poll_output cap now) (fun r e' => rxl pk (os ++ match r with Ok o => [o] | _ => [] end) e') e.
Proof.
  intros Rel H. unfold eng12_poll_output. apply wp_bind, wp_modify.
  set (e1 := set_en_rx (purge_handled (en_rx e)) e).
  assert (H1 : rxl pk os e1).
  { eapply rxl_Rq; [| |exact H]; [|repeat split]. unfold Rq, e1. cbn. repeat split; auto. apply purge_wk. }
  assert (Rel1 : en_release e1 = true -> en_penc e1 = true) by exact Rel.
  clearbody e1. clear e H Rel.
  assert (Tail : wp (let! p := poll_packet_tx cap in match p with Some o => ret o | None => let! s := get in
      if en_cn_recv s && negb (en_cn_rep s) then modify (set_en_cn_rep true) ;;; ret OCloseNotify else ret (OTimeout (poll_timeout s now)) end)
    (fun r e' => rxl pk (os ++ match r with Ok o => [o] | _ => [] end) e') e1).
  { unfold poll_packet_tx. apply wp_bind, wp_bind, wp_get.
    assert (Tail2 : wp (let! s := get in if en_cn_recv s && negb (en_cn_rep s) then modify (set_en_cn_rep true) ;;; ret OCloseNotify else ret (OTimeout (poll_timeout s now)))
      (fun r e' => rxl pk (os ++ match r with Ok o => [o] | _ => [] end) e') e1).
    { apply wp_bind, wp_get. destruct (_ && _); [apply wp_bind, wp_modify|]; apply wp_ret; (apply rxl_output; [reflexivity|]); [|exact H1].
      eapply rxl_Rq; [| |exact H1]; [unfold Rq; cbn; repeat split; auto; apply wk_refl|repeat split]. }
    destruct (en_tx e1) as [|p rest]; [apply wp_ret; exact Tail2|].
    destruct (_ <? _); [apply wp_ret, wp_ret; apply rxl_output; [reflexivity|exact H1]|].
    apply wp_bind, wp_modify, wp_ret, wp_ret. apply rxl_output; [reflexivity|]. eapply rxl_Rq; [| |exact H1]; [unfold Rq; cbn; repeat split; auto; apply wk_refl|repeat split]. }
  apply wp_bind. unfold poll_app_data at 1. apply wp_bind, wp_get.
  destruct (en_release e1) eqn:Hr; cbn [negb]; [|apply wp_ret; exact Tail].
  destruct (find unhandled_app (concat (en_rx e1))) as [r|] eqn:Hf; [|apply wp_ret; exact Tail]. cbv zeta.
  destruct (_ <? _); [apply wp_ret, wp_ret; apply rxl_output; [reflexivity|exact H1]|].
  destruct (r_hs r) as [|? ?] eqn:Hh; [|apply wp_panic; rewrite app_nil_r; exact H1].
  apply wp_bind, wp_modify, wp_ret, wp_ret. intro G. specialize (H1 G). cbn [en_penc set_en_rx]. rewrite (Rel1 eq_refl) in *.
  destruct H1 as (seen & D & (A1 & A2 & A3 & A4 & A5 & A6 & A7 & A8)). exists seen, (D ++ [app_item r]).
  pose proof (mark_first_items _ _ Hf Hh) as Hm. rewrite Hm in A4, A5, A6. unfold high. cbn [en_rx en_replay en_cn_recv en_release set_en_rx].
  rewrite <- !app_assoc. cbn [app].
  split; [rewrite map_app, app_data_app, A1; reflexivity|]. split; [exact A2|]. split.
  { eapply wk_Forall; [|apply mark_first_wk|exact A3]. intros r' r0 (_ & _ & _ & _ & W & _). rewrite W. auto. }
  split; [eapply Forall_impl; [|exact A4]; intros x Hx; eapply item_same; [|exact Hx]; repeat split|].
  split; [exact A5|]. split; [exact A6|]. split; [intro C; eapply close_alert_same; [|apply A7, C]; repeat split|]. rewrite Hr. discriminate.
Qed.

(** ** Lifting to histories *)

Lemma rxl_pres {A} (m : M Eng12 A) pk os e : pres Rq m -> pres same_keys12 m -> rxl pk os e -> wp m (fun _ e' => rxl pk os e') e.
Proof.
  intros H1 H2 K. eapply wp_mono; [apply (wp_conj _ _ _ _ (wp_pres Rq _ _ H1) (wp_pres same_keys12 _ _ H2))|].
  cbv beta. intros r e' (Q & S). eapply rxl_Rq; eauto.
Qed.
Lemma skp_sk {A} (m : M Eng12 A) : pres sk_penc m -> pres same_keys12 m.
Proof. intros H s. apply (H s). Qed.
Lemma rxl_recv pk p os e : rxl pk os e -> rxl (pk ++ [p]) os e.
Proof.
  intros H G. specialize (H (good_app _ _ G)). destruct (en_penc e).
  - destruct H as (seen & D & (H1 & H2 & H3 & H4 & H5 & H6 & H7 & H8)). exists seen, D.
    split; [exact H1|]. split; [exact H2|]. split; [eapply Forall_impl; [|exact H3]; intros r Hr raw Hraw; destruct (Hr raw Hraw); [left; apply record_in_app|right]; assumption|].
    split; [eapply Forall_impl; [|exact H4]; intros x (raw & X1 & X2); exists raw; split; [apply record_in_app, X1|exact X2]|].
    split; [exact H5|]. split; [exact H6|]. split; [|exact H8]. intro C. destruct (H7 C) as (raw & ep & sq & lvl & rest & X1 & X2). exists raw, ep, sq, lvl, rest.
    split; [apply record_in_app, X1|exact X2].
  - destruct H as (L1 & L2 & L3 & L4). split; [exact L1|]. split; [exact L2|]. split; [exact L3|].
    eapply Forall_impl; [|exact L4]. intros r [X1 X2]. split; [apply record_in_app, X1|exact X2].
Qed.
Lemma record_in_of pk p raw : In p pk -> record_of p raw -> record_in pk raw.
Proof. intros H1 H2. exists p. auto. Qed.
Lemma parse_rxl pk os p e : In p pk -> linked E e -> rxl pk os e -> wp (eng12_parse_packet E p) (fun _ e' => rxl pk os e') e.
Proof.
  intros Hp Li H. apply wp_intro. intros o e' Ho G. specialize (H G).
  assert (P : en_penc e' = en_penc e) by (pose proof (wp_run _ _ _ _ _ Ho (wp_pres sk_penc _ _ (skp_parse E p))) as (_ & P); exact P).
  rewrite P. destruct (en_penc e) eqn:Pe.
  - destruct H as (seen & D & H).
    destruct (wp_run _ _ _ _ _ Ho (parse_high pk os seen D p e G ltac:(intros raw Hr; left; eapply record_in_of; eauto) Pe Li H)) as (s1 & _ & H1). eauto.
  - apply (wp_run _ _ _ _ _ Ho (parse_low pk os p e ltac:(intros raw Hr; eapply record_in_of; eauto) Pe H)).
Qed.
Ltac rqpre' := first [exact Rq_po | solve [intros; repeat split; try reflexivity; try apply wk_refl; auto]].
Lemma Rq_timeout now : pres Rq (eng12_handle_timeout E now).
Proof. apply fr_handle_timeout; rqpre'. Qed.
Lemma Rq_random now : pres Rq (random_with_time E now).
Proof. apply fr_random_with_time; rqpre'. Qed.
Lemma Rq_abort e : Rq e (snd (eng12_abort e)).
Proof. unfold Rq. cbn. repeat split; auto. apply wk_refl. Qed.

Definition rx_c (pk : list bytes) (os : list Output) (st : CState12) (e : Eng12) : Prop := kst_c E pk os st e /\ rxl pk os e.
Lemma c_ccs_rxl pk os c : linked E (cl_eng c) -> en_release (cl_eng c) = false -> rxl pk os (cl_eng c) ->
  wp (c_await_change_cipher_spec E) (fun _ c' => rxl pk os (cl_eng c')) c.
Proof.
  intros Li Re H. unfold c_await_change_cipher_spec. apply wp_bind. unfold ceng. apply wp_zoom.
  eapply wp_mono; [apply (wp_conj _ _ _ _ (wp_conj _ _ _ _ (wp_pres sk_penc _ _ (tf_next_record _ _ (skp_late E) CT_CCS)) (wp_pres Rq _ _ (tf_next_record _ _ (Rq_mid E) CT_CCS)))
    (wp_pres rl _ _ (fr_next_record rl rl_po ltac:(intros; reflexivity) CT_CCS)))|].
  cbv beta. intros r e1 (((S1 & P1) & Q1) & Re1). pose proof (rxl_Rq pk os _ _ Q1 S1 H) as H1.
  destruct r as [o|x|x]; [|exact H1..]. destruct o; [|apply wp_ret; exact H1].
  apply wp_bind, wp_zoom. ecbn.
  eapply wp_mono; [apply (wp_conj _ _ _ _ (wp_conj _ _ _ _ (wp_pres sk_penc _ _ (tf_drop_ccs _ _ (skp_late E))) (wp_pres Rq _ _ (tf_drop_ccs _ _ (Rq_mid E))))
    (wp_pres rl _ _ (fr_drop_ccs rl rl_po ltac:(intros; reflexivity))))|].
  cbv beta. intros r2 e2 (((S2 & P2) & Q2) & Re2). pose proof (rxl_Rq pk os _ _ Q2 S2 H1) as H2.
  destruct r2; [|exact H2..]. apply wp_bind, wp_zoom. ecbn.
  eapply wp_mono; [apply (enable_rxl pk os e2); [eapply sk_linked; [exact S2|eapply sk_linked; eauto]|left; unfold rl in *; congruence|exact H2]|].
  cbv beta. intros r3 e3 H3. destruct r3; [apply wp_ret|..]; exact H3.
Qed.
Lemma c_step_rxl pk os st c : inv_c E st c -> kst_c E pk os st (cl_eng c) -> rxl pk os (cl_eng c) ->
  wp (c_step E st) (fun _ c' => rxl pk os (cl_eng c')) c.
Proof.
  intros I0 (L & K1 & K2 & K3) H. destruct (N.eq_dec (c_rank st) 12) as [E12|N12].
  { assert (Hst : st = CS_AwaitChangeCipherSpec) by (destruct st; cbn [c_rank] in E12; try lia; reflexivity). subst st.
    apply c_ccs_rxl; [exact L|eapply inv_low_release; [|exact I0]; cbn; lia|exact H]. }
  destruct (N.eq_dec (c_rank st) 16) as [E16|N16].
  { assert (Hst : st = CS_Closed) by (destruct st; cbn [c_rank] in E16; try lia; reflexivity). subst st. apply wp_ret. exact H. }
  apply wp_intro. intros r c' Hr.
  pose proof (ml_c_step E Rq (Rq_mid E) st N12 c) as Q. unfold History12Facts.RC in Q. rewrite Hr in Q. cbn [snd] in Q.
  destruct (N.lt_ge_cases (c_rank st) 12) as [Lo|Hi].
  - eapply rxl_Rq_low; [exact Q| |exact H]. destruct (en_penc (cl_eng c)) eqn:Pe; [|reflexivity].
    destruct st; cbn [c_rank] in *; try lia; destruct K3 as (_ & _ & K3); specialize (K3 eq_refl); lia.
  - pose proof (tl_c_step E sk_penc (skp_late E) st ltac:(lia) N12 c) as S. unfold History12Facts.RC in S. rewrite Hr in S. cbn [snd] in S.
    eapply rxl_Rq; [exact Q|apply S|exact H].
Qed.
Lemma rx_c_lift : c_lift E rx_c.
Proof.
  pose proof (kst_c_lift E) as KL. constructor.
  - intros pk os st c I0 [K H]. eapply wp_mono; [apply (wp_conj _ _ _ _ (cli_step _ _ KL pk os st c I0 K) (c_step_rxl pk os st c I0 K H))|].
    cbv beta. intros [st'|x|x] c' [K' H']; split; assumption.
  - intros p pk os st e Hp [K H]. eapply wp_mono; [apply (wp_conj _ _ _ _ (cli_parse _ _ KL p pk os st e Hp K) (parse_rxl pk os p e Hp (proj1 K) H))|]. cbv beta. auto.
  - intros p pk os st e [K H]. split; [apply (cli_recv _ _ KL); exact K|apply rxl_recv, H].
  - intros now pk os st e [K H]. eapply wp_mono; [apply (wp_conj _ _ _ _ (cli_timeout _ _ KL now pk os st e K) (rxl_pres _ pk os e (Rq_timeout now) (skp_sk _ (skp_timeout E now)) H))|]. auto.
  - intros now pk os st e [K H]. eapply wp_mono; [apply (wp_conj _ _ _ _ (cli_random _ _ KL now pk os st e K) (rxl_pres _ pk os e (Rq_random now) (skp_sk _ (skp_random E now)) H))|]. auto.
  - intros d pk os e Re [K H]. eapply wp_mono; [apply (wp_conj _ _ _ _ (cli_send _ _ KL d pk os e Re K) (rxl_pres _ pk os e (tf_create_record _ _ (Rq_mid E) _ _ _ _) (skp_sk _ (tf_create_record _ _ (skp_late E) _ _ _ _)) H))|]. auto.
  - intros pk os e Re [K H]. eapply wp_mono; [apply (wp_conj _ _ _ _ (cli_alert _ _ KL pk os e Re K) (rxl_pres _ pk os e (tf_create_record _ _ (Rq_mid E) _ _ _ _) (skp_sk _ (tf_create_record _ _ (skp_late E) _ _ _ _)) H))|].
    cbv beta. intros r e' [[K1 K2] H']. split; [split; assumption|]. destruct r; auto. split; assumption.
  - intros pk os st e [K H]. pose proof (cli_abort _ _ KL pk os st e K) as K'. unfold eng12_abort in *. apply wp_modify. split; [exact K'|].
    eapply rxl_Rq; [apply Rq_abort| |exact H]. repeat split.
  - intros cap now pk os st e [K H]. eapply wp_mono; [apply (wp_conj _ _ _ _ (cli_poll _ _ KL cap now pk os st e K) (poll_rxl pk os cap now e (proj1 (proj2 (proj2 K))) H))|]. auto.
  - intros o pk os st e He [K H]. split; [apply (cli_event _ _ KL); assumption|]. apply rxl_output; [|exact H]. destruct o; try reflexivity; destruct He.
Qed.

Definition rx_s (pk : list bytes) (os : list Output) (st : SState12) (e : Eng12) : Prop := kst_s E pk os st e /\ rxl pk os e.
Lemma s_ccs_rxl pk os c : linked E (sv_eng c) -> en_release (sv_eng c) = false -> rxl pk os (sv_eng c) ->
  wp (s_await_change_cipher_spec E) (fun _ c' => rxl pk os (sv_eng c')) c.
Proof.
  intros Li Re H. unfold s_await_change_cipher_spec. apply wp_bind. unfold seng. apply wp_zoom.
  eapply wp_mono; [apply (wp_conj _ _ _ _ (wp_conj _ _ _ _ (wp_pres sk_penc _ _ (tf_next_record _ _ (skp_late E) CT_CCS)) (wp_pres Rq _ _ (tf_next_record _ _ (Rq_mid E) CT_CCS)))
    (wp_pres rl _ _ (fr_next_record rl rl_po ltac:(intros; reflexivity) CT_CCS)))|].
  cbv beta. intros r e1 (((S1 & P1) & Q1) & Re1). pose proof (rxl_Rq pk os _ _ Q1 S1 H) as H1.
  destruct r as [o|x|x]; [|exact H1..]. destruct o; [|apply wp_ret; exact H1].
  apply wp_bind, wp_zoom. ecbn.
  eapply wp_mono; [apply (wp_conj _ _ _ _ (wp_conj _ _ _ _ (wp_pres sk_penc _ _ (tf_drop_ccs _ _ (skp_late E))) (wp_pres Rq _ _ (tf_drop_ccs _ _ (Rq_mid E))))
    (wp_pres rl _ _ (fr_drop_ccs rl rl_po ltac:(intros; reflexivity))))|].
  cbv beta. intros r2 e2 (((S2 & P2) & Q2) & Re2). pose proof (rxl_Rq pk os _ _ Q2 S2 H1) as H2.
  destruct r2; [|exact H2..]. apply wp_bind, wp_zoom. ecbn.
  eapply wp_mono; [apply (enable_rxl pk os e2); [eapply sk_linked; [exact S2|eapply sk_linked; eauto]|left; unfold rl in *; congruence|exact H2]|].
  cbv beta. intros r3 e3 H3. destruct r3; [apply wp_ret|..]; exact H3.
Qed.
Lemma s_step_rxl pk os st c : inv_s E st c -> kst_s E pk os st (sv_eng c) -> rxl pk os (sv_eng c) ->
  wp (s_step E st) (fun _ c' => rxl pk os (sv_eng c')) c.
Proof.
  intros I0 (L & K1 & K2 & K3) H. destruct (N.eq_dec (s_rank st) 9) as [E12|N12].
  { assert (Hst : st = SS_AwaitChangeCipherSpec) by (destruct st; cbn [s_rank] in E12; try lia; reflexivity). subst st.
    apply s_ccs_rxl; [exact L|eapply inv_s_low_release; [|exact I0]; cbn; lia|exact H]. }
  destruct (N.eq_dec (s_rank st) 14) as [E16|N16].
  { assert (Hst : st = SS_Closed) by (destruct st; cbn [s_rank] in E16; try lia; reflexivity). subst st. apply wp_ret. exact H. }
  apply wp_intro. intros r c' Hr.
  pose proof (ml_s_step E Rq (Rq_mid E) st N12 c) as Q. unfold History12Facts.RS in Q. rewrite Hr in Q. cbn [snd] in Q.
  destruct (N.lt_ge_cases (s_rank st) 9) as [Lo|Hi].
  - eapply rxl_Rq_low; [exact Q| |exact H]. destruct (en_penc (sv_eng c)) eqn:Pe; [|reflexivity].
    destruct st; cbn [s_rank] in *; try lia; destruct K3 as (_ & _ & K3); specialize (K3 eq_refl); lia.
  - pose proof (tl_s_step E sk_penc (skp_late E) st ltac:(lia) N12 c) as S. unfold History12Facts.RS in S. rewrite Hr in S. cbn [snd] in S.
    eapply rxl_Rq; [exact Q|apply S|exact H].
Qed.
Lemma rx_s_lift : s_lift E rx_s.
Proof.
  pose proof (kst_s_lift E) as KL. constructor.
  - intros pk os st c I0 [K H]. eapply wp_mono; [apply (wp_conj _ _ _ _ (sl_step _ _ KL pk os st c I0 K) (s_step_rxl pk os st c I0 K H))|].
    cbv beta. intros [st'|x|x] c' [K' H']; split; assumption.
  - intros p pk os st e Hp [K H]. eapply wp_mono; [apply (wp_conj _ _ _ _ (sl_parse _ _ KL p pk os st e Hp K) (parse_rxl pk os p e Hp (proj1 K) H))|]. cbv beta. auto.
  - intros p pk os st e [K H]. split; [apply (sl_recv _ _ KL); exact K|apply rxl_recv, H].
  - intros now pk os st e [K H]. eapply wp_mono; [apply (wp_conj _ _ _ _ (sl_timeout _ _ KL now pk os st e K) (rxl_pres _ pk os e (Rq_timeout now) (skp_sk _ (skp_timeout E now)) H))|]. auto.
  - intros now pk os st e [K H]. eapply wp_mono; [apply (wp_conj _ _ _ _ (sl_random _ _ KL now pk os st e K) (rxl_pres _ pk os e (Rq_random now) (skp_sk _ (skp_random E now)) H))|]. auto.
  - intros d pk os e Re [K H]. eapply wp_mono; [apply (wp_conj _ _ _ _ (sl_send _ _ KL d pk os e Re K) (rxl_pres _ pk os e (tf_create_record _ _ (Rq_mid E) _ _ _ _) (skp_sk _ (tf_create_record _ _ (skp_late E) _ _ _ _)) H))|]. auto.
  - intros pk os e Re [K H]. eapply wp_mono; [apply (wp_conj _ _ _ _ (sl_alert _ _ KL pk os e Re K) (rxl_pres _ pk os e (tf_create_record _ _ (Rq_mid E) _ _ _ _) (skp_sk _ (tf_create_record _ _ (skp_late E) _ _ _ _)) H))|].
    cbv beta. intros r e' [[K1 K2] H']. split; [split; assumption|]. destruct r; auto. split; assumption.
  - intros pk os st e [K H]. pose proof (sl_abort _ _ KL pk os st e K) as K'. unfold eng12_abort in *. apply wp_modify. split; [exact K'|].
    eapply rxl_Rq; [apply Rq_abort| |exact H]. repeat split.
  - intros cap now pk os st e [K H]. eapply wp_mono; [apply (wp_conj _ _ _ _ (sl_poll _ _ KL cap now pk os st e K) (poll_rxl pk os cap now e (proj1 (proj2 (proj2 K))) H))|]. auto.
  - intros o pk os st e He [K H]. split; [apply (sl_event _ _ KL); assumption|]. apply rxl_output; [|exact H]. destruct o; try reflexivity; destruct He.
Qed.

Definition rx_end := Jend rx_c rx_s.
Theorem reach_rx cfg auth h s : reach12 E cfg auth h s -> rx_end (received h) (outputs h) s.
Proof.
  intro H. apply (lift_reach E rx_c rx_s rx_c_lift rx_s_lift cfg auth h s); [|exact H].
  intros s0 H0. destruct (start_eng E cfg auth s0 H0) as (b & o & He & _).
  assert (R0 : rxl [] [] (end_eng s0)).
  { rewrite He. intro G. cbn. split; [reflexivity|]. split; [reflexivity|]. split; [reflexivity|constructor]. }
  pose proof (reach_kst E cfg auth [] s0) as K.
  assert (H1 : reach12 E cfg auth [] s0) by (exists s0; split; [exact H0|constructor]).
  specialize (K H1). unfold rx_end, Jend. unfold kst in K. destruct s0; (split; [exact K|exact R0]).
Qed.
End Recv.
