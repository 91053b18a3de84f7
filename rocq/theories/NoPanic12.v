(** When a connected DTLS 1.2 endpoint panics. *)
From Verif Require Import Prelude PreludeFacts Types Codec Codec12 Record12 Monad MonadFacts Timer Env Config Aead Prf Context12 Engine12 Client12 Server12
  History12 History12Facts Keys12 Rx12Ledger Rx12Facts.

(** [panics_by X r]: a panic in [r] is one of those of [X]. *)
Definition panics_by {A} (X : N -> Prop) (r : res A) : Prop := match r with Panic n => X n | _ => True end.

Section NoPanic.
Variable E : Env.
Hypothesis SOK : suites12_ok E.
Variable X : N -> Prop.

Definition able (e : Eng12) : Prop := linked E e /\ keyed E e.
Definition np {S A} (ge : S -> Eng12) (m : M S A) : Prop :=
  forall s, able (ge s) -> wp m (fun r s' => able (ge s') /\ panics_by X r) s.

Lemma np_ret {S A} (ge : S -> Eng12) (a : A) : np ge (ret a).
Proof. intros s H. split; [exact H|exact I]. Qed.
Lemma np_fail {S A} (ge : S -> Eng12) x : np ge (@fail S A x).
Proof. intros s H. split; [exact H|exact I]. Qed.
Lemma np_modify {S} (ge : S -> Eng12) f : (forall s, able (ge s) -> able (ge (f s))) -> np ge (modify f).
Proof. intros K s H. split; [apply K, H|exact I]. Qed.
Lemma np_bind {S A B} (ge : S -> Eng12) (m : M S A) (k : A -> M S B) : np ge m -> (forall a, np ge (k a)) -> np ge (bind m k).
Proof. intros H K s C. apply wp_bind. wpuse (H s C). intros [a|x|n] e' [C' N]; [apply K, C'|split; [exact C'|exact I]|split; [exact C'|exact N]]. Qed.
Lemma np_get {S B} (ge : S -> Eng12) (k : S -> M S B) : (forall s, able (ge s) -> np ge (k s)) -> np ge (bind get k).
Proof. intros K s C. apply wp_bind, wp_get. apply K; exact C. Qed.
Lemma np_when {S} (ge : S -> Eng12) b m : np ge m -> np ge (when b m).
Proof. intros H. destruct b; [exact H|apply np_ret]. Qed.
Lemma np_iter {S A} (ge : S -> Eng12) (f : A -> M S unit) l : (forall a, np ge (f a)) -> np ge (iterM f l).
Proof. intros H. induction l as [|a l IH]; [apply np_ret|]. apply np_bind; [apply H|intro; exact IH]. Qed.
Lemma np_public {S} (ge : S -> Eng12) m : np ge m -> np ge (public m).
Proof. intros H s C. specialize (H s C). unfold wp, public in *. destruct (m s) as [[a|[]|n] s']; cbn in *; tauto. Qed.
Lemma np_zoom {S A} (ge : S -> Eng12) set (m : M Eng12 A) : (forall e s, ge (set e s) = e) -> np (fun e => e) m -> np ge (zoom ge set m).
Proof. intros G H s C. specialize (H (ge s) C). unfold wp, zoom in *. destruct (m (ge s)) as [r e]. cbn in *. rewrite G. exact H. Qed.
Lemma np_panic {S A} (ge : S -> Eng12) n : X n -> np ge (@panic S A n).
Proof. intros H s C. split; [exact C|exact H]. Qed.

Notation ne := (np (fun e : Eng12 => e)).

Lemma np_draw : ne draw.
Proof. intros e C. split; [exact C|exact I]. Qed.
Lemma np_rand n : ne (rand_bytes E n).
Proof. apply np_bind; [exact np_draw|intro; apply np_ret]. Qed.
Lemma np_bsearch cs : ne (bsearch E cs).
Proof. apply np_bind; [exact np_draw|intro; apply np_ret]. Qed.

Ltac npauto := repeat (lazymatch goal with
  | |- np _ (bind get _) => apply np_get; intros ? ?
  | |- np _ (bind _ _) => apply np_bind; [|intro]
  | |- np _ (ret _) => apply np_ret
  | |- np _ (fail _) => apply np_fail
  | |- np _ (when _ _) => apply np_when
  | |- np _ draw => apply np_draw
  | |- np _ (rand_bytes _ _) => apply np_rand
  | |- np _ (bsearch _ _) => apply np_bsearch
  | |- np _ (modify _) => apply np_modify; let H := fresh in intros ? H; exact H
  | |- np _ (match ?x with _ => _ end) => destruct x eqn:?
  end).

(** *** Sending *)
Lemma own_nonce e sq x iv : able e -> own_iv e = Some iv -> length x = en_enl e -> exists n, record_nonce (en_enl e) iv 1 sq x = Some n.
Proof.
  intros [Li (cs & i & ms & cr & sr & kb & K1 & K2 & K3 & K4 & K5 & K6 & K7 & K8 & K9 & K10)] O L.
  unfold linked in Li. rewrite K1 in Li. destruct Li as (i' & L1 & L2 & L3). rewrite K2 in L1. injection L1 as <-.
  apply prf_length in K6.
  assert (V : length iv = s12_iv i).
  { unfold own_iv in O. destruct (en_client e); [rewrite K9 in O|rewrite K10 in O]; injection O as <-; apply slice_len; lia. }
  unfold record_nonce. rewrite L2 in *. destruct (SOK _ _ K2) as [[S1 S2]|[S1 S2]]; rewrite S2 in *; rewrite V, ?L, S1; eexists; reflexivity.
Qed.
Hypothesis RL : rand_ok E.
Lemma np_seal ct sq f : ne (seal_record E ct sq f).
Proof.
  intros e C. unfold seal_record. apply wp_bind, wp_get. destruct (own_iv e) as [iv|] eqn:O; [|split; [exact C|exact I]].
  apply wp_bind. destruct (en_enl e) as [|[|[|[|[|[|[|[|[|k]]]]]]]]] eqn:L; try (split; [exact C|exact I]).
  - cbn. destruct (own_nonce e sq [] iv C O) as [n Hn]; [rewrite L; reflexivity|]. rewrite L in Hn. cbn in Hn. unfold wp. cbn. rewrite Hn.
    destruct (cipher_seal _ _ _ _ _); split; try exact C; exact I.
  - unfold rand_bytes, draw, gets. cbn.
    destruct (own_nonce e sq (e_rand E (en_orc e) 8) iv C O) as [n Hn]; [rewrite L; apply RL|]. rewrite L in Hn. cbn in Hn. unfold wp. cbn. rewrite Hn.
    destruct (cipher_seal _ _ _ _ _); split; try exact C; exact I.
Qed.
Lemma np_create ct ep sv fn f : ne (create_record_inner E ct ep sv fn f).
Proof. unfold create_record_inner. npauto; apply np_seal. Qed.
Lemma np_record ct ep sv f : ne (create_record E ct ep sv f).
Proof. apply np_create. Qed.
Lemma np_resend_loop r es : forall b, ne (resend_loop E r b es).
Proof. induction es as [|[[ct ep] f] es IH]; intro b; [apply np_ret|]. apply np_bind; [apply np_create|intro; apply IH]. Qed.
Lemma np_resend : ne (flight_resend E).
Proof. unfold flight_resend. npauto. apply np_resend_loop. Qed.
Lemma np_timeout now : ne (eng12_handle_timeout E now).
Proof. unfold eng12_handle_timeout. npauto; apply np_resend. Qed.

(** *** Receiving *)
Lemma np_rec_parse raw : bytes_ok raw -> ne (rec_parse E raw).
Proof.
  intro B. unfold rec_parse. destruct (p_parsed12 0 raw) as [r|] eqn:P; [|apply np_ret]. intros e C. apply wp_bind, wp_get.
  destruct (_ || _); [apply np_ret, C|]. destruct (negb _); [apply np_ret, C|]. destruct (r_length r <? _) eqn:Hl; [apply np_ret, C|].
  apply N.ltb_ge in Hl. destruct (parsed_shape _ _ B P) as (_ & Hlen & _). rewrite Hlen in Hl.
  destruct (keyed_nonce E SOK e r (proj1 C) (proj2 C) Hl) as (iv & nonce & V1 & V2).
  unfold decryption_aad_and_nonce. apply wp_bind, wp_bind, wp_get. rewrite V1, V2. apply wp_ret.
  revert e C V1 V2 Hl. intros e C _ _ _.
  match goal with |- wp ?m _ _ => assert (N : ne m); [npauto|exact (N e C)] end.
Qed.
Lemma np_parse_loop : forall fuel room p, bytes_ok p -> (length p <= fuel)%nat -> ne (parse_loop E fuel room p).
Proof.
  induction fuel as [|fuel IH]; intros room p B L.
  - destruct p; [apply np_ret|cbn in L; lia].
  - destruct p as [|b p]; [apply np_ret|]. cbn [parse_loop]. destruct (Nat.ltb _ HEADER_LEN) eqn:H1; [apply np_fail|].
    set (n := N.to_nat _). destruct (Nat.ltb _ (HEADER_LEN + n)) eqn:H2; [apply np_fail|]. apply Nat.ltb_ge in H1.
    assert (Hs : (length (skipn (HEADER_LEN + n) (b :: p)) <= fuel)%nat) by (rewrite skipn_length; unfold HEADER_LEN in *; cbn [length] in *; lia).
    assert (Bs : bytes_ok (skipn (HEADER_LEN + n) (b :: p))) by (apply bytes_ok_skipn, B).
    apply np_bind; [apply np_rec_parse, bytes_ok_firstn, B|]. intros [r|]; [|apply IH; assumption].
    destruct room; [apply np_fail|]. apply np_bind; [apply IH; assumption|intro; apply np_ret].
Qed.
Lemma np_classify r : ne (classify_record r).
Proof. unfold classify_record. npauto. Qed.
Lemma np_classify_all rs : ne (classify_all rs).
Proof. induction rs as [|r rs IH]; [apply np_ret|]. apply np_bind; [apply np_classify|intro]. apply np_bind; [exact IH|intro; apply np_ret]. Qed.
Lemma np_insert_hs inc r h : ne (insert_incoming_handshake E inc r h).
Proof. unfold insert_incoming_handshake. npauto; apply np_resend. Qed.
(** A datagram without an authentic record. *)
Lemma np_unauthentic p e : en_penc e = true -> able e -> bytes_ok p ->
  (forall raw ct ep sq d, record_of p raw -> ~ authentic12 E e raw ct ep sq d) ->
  wp (eng12_parse_packet E p) (fun r e' => able e' /\ panics_by X r) e.
Proof.
  intros Pe C B NA. destruct (C) as [Li K]. unfold eng12_parse_packet, records_parse. apply wp_bind, wp_bind.
  eapply wp_mono; [apply (parse_loop_garbage E SOK _ _ p e (Nat.le_refl _) Pe Li K B NA)|]. cbv beta. intros o e1 [-> U].
  destruct o as [rs|x|x]; [|split; [exact C|exact I]|destruct U].
  eapply wp_mono; [apply (classify_plain rs e Pe)|].
  - eapply Forall_impl; [|exact U]. intros r (H & _). exact H.
  - eapply Forall_impl; [|exact U]. intros r (H & raw & _ & Y). eapply epoch0_not_app; eauto.
  - intros r Hr. rewrite Forall_forall in U. destruct (U r Hr) as (H & raw & _ & Y). eapply epoch0_types; eauto.
  - cbv beta. intros o e2 (-> & rs' & -> & R). destruct rs' as [|r rest]; [apply wp_ret; split; [exact C|exact I]|].
    inversion R as [|? ? (R1 & R2 & h & d & R3 & _) _]; subst.
    match goal with |- wp ?m _ _ => assert (N : ne m); [|exact (N e C)] end.
    unfold insert_incoming. rewrite R3. apply np_get; intros s A. destruct (_ <=? _); [apply np_fail|apply np_insert_hs].
Qed.
Hypothesis X364 : X 364.
Lemma np_insert inc : ne (insert_incoming E inc).
Proof.
  unfold insert_incoming, insert_incoming_handshake, insert_incoming_non_handshake. npauto; first [apply np_resend|apply np_panic; exact X364].
Qed.
Lemma np_parse_packet p : bytes_ok p -> ne (eng12_parse_packet E p).
Proof.
  intro B. apply np_bind; [apply np_bind; [apply np_parse_loop; [exact B|lia]|intro; apply np_classify_all]|]. intros [|r rs]; [apply np_ret|apply np_insert].
Qed.
End NoPanic.
