(** The sending side of the DTLS 1.3 engine. *)
From Verif Require Import Prelude PreludeFacts Types Codec Codec12 Codec13 Record12 Record13 Monad MonadFacts Timer
  Env Config Aead Prf Window SeqRecon Engine12 Queue12Proofs Client12 Engine13 Client13 Server13 Frame13 History12 History13 Lift13.

Lemma wp_draw13 (Q : res N -> Eng13 -> Prop) s :
  Q (Ok (g_orc s)) (set_g_orc (g_orc s + 1) s) -> wp draw13 Q s.
Proof. exact (fun H => H). Qed.
Lemma wp_suite_provider E (Q : res Suite13Info -> Eng13 -> Prop) s :
  match g_suite s with
  | None => Q (Panic 1610) s
  | Some cs => match find13 E cs with None => Q (Panic 1617) s | Some i => Q (Ok i) s end
  end -> wp (suite_provider13 E) Q s.
Proof.
  intros H. unfold suite_provider13. apply wp_bind, wp_get. destruct (g_suite s) as [cs|]; [|exact H].
  destruct (find13 E cs); exact H.
Qed.

(** Add a record to the transmit queue, in the last datagram or in a new one. *)
Definition emit13 (app : bool) (rec : bytes) (s : Eng13) : Eng13 :=
  if app then set_g_tx (append_last rec (g_tx s)) s
  else set_g_tx (g_tx s ++ [rec]) (set_g_sealed false s).
Definition keep13 (sv : bool) (e : Entry13) (s : Eng13) : Eng13 :=
  if sv then set_g_saved (g_saved s ++ [e]) s else s.

Lemma wp_save13 e (Q : res unit -> Eng13 -> Prop) s :
  (Nat.leb 12 (length (g_saved s)) = true -> Q (Panic 900) s) ->
  (Nat.leb 12 (length (g_saved s)) = false -> Q (Ok tt) (set_g_saved (g_saved s ++ [e]) s)) ->
  wp (save13 e) Q s.
Proof.
  intros H1 H2. unfold save13. apply wp_bind, wp_get. destruct (Nat.leb 12 _); [apply H1|apply H2]; reflexivity.
Qed.

Lemma create_plain_spec ct sv f s :
  wp (create_plain13 ct sv f) (fun r s' =>
    let app := can_append13 s (13 + len f) in
    let e := mkEntry13 ct 0 (g_seq0 s) f false in
    match r with
    | Ok _ => g_seq0 s < MAX_SEQ /\ (app = false -> len (g_tx s) < c_max_tx (g_cfg s)) /\
        (sv = true -> (length (g_saved s) < 12)%nat) /\
        s' = emit13 app (s_plain13 ct 0 (g_seq0 s) f) (set_g_seq0 (g_seq0 s + 1) (keep13 sv e s))
    | Err x => (x = ETxFull \/ x = ECrypto) /\ s' = keep13 sv e s
    | Panic n => n = 900 /\ sv = true /\ s' = s /\ (12 <= length (g_saved s))%nat
    end) s.
Proof.
  unfold create_plain13. apply wp_bind, wp_get, wp_bind, wp_when; intro Hsv.
  - subst sv. apply wp_save13; intros Hl.
    + repeat split; auto. lia.
    + destruct (negb _ && _) eqn:Hq; [apply wp_fail; auto|].
      destruct (MAX_SEQ <=? g_seq0 s) eqn:Hm; [apply wp_fail; auto|].
      apply wp_bind, wp_modify. unfold enqueue13.
      destruct (can_append13 s (13 + len f)) eqn:Ha; apply wp_modify; cbn [negb andb] in Hq;
        (split; [lia|]); (split; [intros; first [discriminate|lia]|]); (split; [intros _; lia|]); reflexivity.
  - subst sv.
    destruct (negb _ && _) eqn:Hq; [apply wp_fail; auto|].
    destruct (MAX_SEQ <=? g_seq0 s) eqn:Hm; [apply wp_fail; auto|].
    apply wp_bind, wp_modify. unfold enqueue13.
    destruct (can_append13 s (13 + len f)) eqn:Ha; apply wp_modify; cbn [negb andb] in Hq;
      (split; [lia|]); (split; [intros; first [discriminate|lia]|]); (split; [discriminate|]); reflexivity.
Qed.

(** The wire bytes of a protected record sealed under [k] with number [sq]. *)
Definition sealed13 (E : Env) (i : Suite13Info) (k : Keys13) (ep sq ct : N) (f rec body : bytes) : Prop :=
  e_seal E (ek_suite k) (ek_key k) (nonce_xor (ek_iv k) sq)
    (s_uhdr13 ep sq (len (f ++ [ct]) + N.of_nat (s13_tag i))) (f ++ [ct]) = Some body /\
  rec = xor_seq 2 (if Nat.leb 16 (length body) then e_mask E (s13_id i) (ek_sn k) (firstn 16 body) else [])
          (s_rec13 CT_APP ep sq body).

Lemma create_cipher_spec E ct ep sv f s :
  wp (create_cipher13 E ct ep sv f) (fun r s' =>
    let c := ctx13 s ep in
    let sq := ctx_seq s c in
    let e := mkEntry13 ct ep sq f false in
    match r with
    | Ok _ => exists cs i k body rec,
        g_suite s = Some cs /\ find13 E cs = Some i /\ ctx_keys s c = Some k /\
        sealed13 E i k ep sq ct f rec body /\ sq < MAX_SEQ /\
        (can_append13 s (5 + len body) = false -> len (g_tx s) < c_max_tx (g_cfg s)) /\
        (sv = true -> (length (g_saved s) < 12)%nat) /\
        s' = emit13 (can_append13 s (5 + len body)) rec (bump_seq c ep (keep13 sv e s))
    | Err x => (x = ETxFull \/ x = ECrypto) /\ s' = keep13 sv e s
    | Panic n => s' = s \/ s' = keep13 sv e s
    end) s.
Proof.
  unfold create_cipher13. apply wp_bind, wp_get, wp_bind.
  apply wp_mono with (P := fun r s1 =>
    match r with
    | Ok _ => s1 = keep13 sv (mkEntry13 ct ep (ctx_seq s (ctx13 s ep)) f false) s /\
              (sv = true -> (length (g_saved s) < 12)%nat)
    | Err _ => False
    | Panic _ => s1 = s
    end).
  { apply wp_when; intros ->; [|split; [reflexivity|discriminate]].
    apply wp_save13; intros Hl; [reflexivity|]. split; [reflexivity|]. intros _. lia. }
  intros r s1 H. destruct r as [u|x|n]; [|contradiction|left; exact H]. destruct H as [-> Hs]. apply wp_bind, wp_suite_provider.
  assert (Hg : g_suite (keep13 sv (mkEntry13 ct ep (ctx_seq s (ctx13 s ep)) f false) s) = g_suite s)
    by (destruct sv; reflexivity). rewrite Hg.
  destruct (g_suite s) as [cs|] eqn:Hc; [|right; reflexivity].
  destruct (find13 E cs) as [i|] eqn:Hi; [|right; reflexivity].
  destruct (ctx_keys s (ctx13 s ep)) as [k|] eqn:Hk; [|apply wp_fail; auto].
  destruct (Nat.ltb 32 _); [apply wp_panic; auto|].
  destruct (e_seal _ _ _ _ _ _) as [body|] eqn:Hb; [|apply wp_fail; auto].
  destruct (negb _ && _) eqn:Hq; [apply wp_fail; auto|].
  destruct (MAX_SEQ <=? _) eqn:Hm; [apply wp_fail; auto|].
  apply wp_bind, wp_modify. unfold enqueue13. cbv zeta.
  destruct (can_append13 s (5 + len body)) eqn:Ha; apply wp_modify; exists cs, i, k, body; eexists;
    (split; [reflexivity|]); (split; [exact Hi|]); (split; [reflexivity|]);
    (split; [split; [exact Hb|reflexivity]|]); (split; [lia|]); rewrite Ha;
    (split; [intros; first [discriminate|lia]|]); (split; [exact Hs|]); reflexivity.
Qed.

(** ** Limits of the queues *)

Definition qbound13 (s : Eng13) : Prop :=
  len (g_rx s) <= c_max_rx (g_cfg s) /\ len (g_tx s) <= c_max_tx (g_cfg s).
Definition Rq13 (a b : Eng13) : Prop := g_cfg a = g_cfg b /\ (qbound13 a -> qbound13 b).
Lemma Rq13_po : preorder Rq13.
Proof. unfold Rq13. split; [auto|]. intros a b c [H1 H2] [H3 H4]. split; [congruence|auto]. Qed.

Lemma can_append13_nonnil s w : can_append13 s w = true -> g_tx s <> [].
Proof. unfold can_append13. intros H K. rewrite K in H. cbn in H. rewrite andb_false_r in H. discriminate. Qed.

Lemma Rq13_emit app rec s : (app = true -> g_tx s <> []) ->
  (app = false -> len (g_tx s) < c_max_tx (g_cfg s)) -> Rq13 s (emit13 app rec s).
Proof.
  intros H1 H2. destruct app; (split; [reflexivity|]); intros [Hr Ht]; (split; [exact Hr|]); cbn.
  - rewrite len_append_last; auto.
  - rewrite len_app'. specialize (H2 eq_refl). change (len [rec]) with 1. lia.
Qed.
Ltac qtriv13 := intros; split; [reflexivity|exact (fun H => H)].
Lemma keep13_rq sv e s : Rq13 s (keep13 sv e s).
Proof. destruct sv; qtriv13. Qed.
Lemma bump_rq c ep s : Rq13 s (bump_seq c ep s).
Proof. unfold bump_seq. destruct c; cbv zeta; [qtriv13..|]. destruct (3 <=? ep); [destruct (_ <=? _)|]; qtriv13. Qed.

Lemma q13_cipher E ct ep sv f : pres Rq13 (create_cipher13 E ct ep sv f).
Proof.
  intro s. apply (wp_mono _ _ (fun _ s' => Rq13 s s') s (create_cipher_spec E ct ep sv f s)).
  intros r s' H. cbv zeta in H. destruct r as [u|x|n].
  - destruct H as (cs & i & k & body & rec & _ & _ & _ & _ & _ & Ha & _ & ->).
    set (s1 := bump_seq _ _ _).
    assert (K : Rq13 s s1) by (eapply (po_trans _ Rq13_po); [apply keep13_rq|apply bump_rq]).
    eapply (po_trans _ Rq13_po); [exact K|].
    assert (Kt : g_tx s1 = g_tx s /\ g_cfg s1 = g_cfg s).
    { unfold s1, bump_seq, keep13. destruct (ctx13 s ep), sv; cbv zeta; auto;
        destruct (3 <=? ep); auto; destruct (_ <=? _); auto. }
    destruct Kt as [K1 K2]. apply Rq13_emit; rewrite K1, ?K2; [apply can_append13_nonnil|exact Ha].
  - destruct H as [_ ->]. apply keep13_rq.
  - destruct H as [-> | ->]; [apply Rq13_po|apply keep13_rq].
Qed.
Lemma q13_plain ct sv f : pres Rq13 (create_plain13 ct sv f).
Proof.
  intro s. apply (wp_mono _ _ (fun _ s' => Rq13 s s') s (create_plain_spec ct sv f s)).
  intros r s' H. cbv zeta in H. destruct r as [u|x|n].
  - destruct H as (_ & Ha & _ & ->).
    eapply (po_trans _ Rq13_po); [apply (keep13_rq sv (mkEntry13 ct 0 (g_seq0 s) f false))|].
    eapply (po_trans _ Rq13_po); [|apply Rq13_emit; destruct sv; cbn; [apply can_append13_nonnil|apply can_append13_nonnil|exact Ha|exact Ha]].
    qtriv13.
  - destruct H as [_ ->]. apply keep13_rq.
  - destruct H as (_ & _ & -> & _). apply Rq13_po.
Qed.

Lemma Rq13_rx_le s v : len v <= len (g_rx s) -> Rq13 s (set_g_rx v s).
Proof. intros H. split; [reflexivity|]. intros [H1 H2]. split; [|exact H2]. cbn. lia. Qed.

Lemma len_filter {A} (f : A -> bool) l : len (filter f l) <= len l.
Proof. unfold len. induction l as [|x l IH]; cbn [filter]; [lia|]. destruct (f x); cbn [length]; lia. Qed.
Lemma len_set_nth {A} i (x : A) l : len (set_nth i x l) = len l.
Proof. unfold len. revert i. induction l as [|y l IH]; intros [|i]; cbn [set_nth length]; try reflexivity. specialize (IH i). lia. Qed.
Lemma split_epoch2_app q : fst (split_epoch2 q) ++ snd (split_epoch2 q) = q.
Proof.
  induction q as [|inc q IH]; cbn [split_epoch2]; [reflexivity|]. destruct (existsb _ _); [reflexivity|].
  destruct (split_epoch2 q). cbn in *. congruence.
Qed.

Lemma rx_flight_resend13 E : pres (fun a b => g_rx a = g_rx b) (flight_resend13 E).
Proof.
  apply fr_flight_resend13; try (intros; reflexivity); try apply preorder_eq.
  - intros. apply op_create_plain; try (intros; reflexivity); apply preorder_eq.
  - intros. apply op_create_cipher; try (intros; reflexivity); apply preorder_eq.
Qed.
Lemma q13_flight_resend E : pres Rq13 (flight_resend13 E).
Proof.
  apply fr_flight_resend13; try qtriv13; try exact Rq13_po.
  - intros. apply q13_plain.
  - intros. apply q13_cipher.
Qed.

Lemma q13_insert E inc : pres Rq13 (insert_incoming13 E inc).
Proof.
  apply pres_wp. intro s. unfold insert_incoming13.
  apply wp_bind, wp_get. destruct (c_max_rx (g_cfg s) <=? len (g_rx s)) eqn:Hm; [apply wp_fail, Rq13_po|].
  destruct inc as [|r inc]; [apply wp_ret, Rq13_po|].
  assert (Hins : forall i x s1, Rq13 s s1 -> g_rx s1 = g_rx s -> Rq13 s (set_g_rx (insert_at i x (g_rx s1)) s1)).
  { intros i x s1 [Hc Hq] Hrx. split; [exact Hc|]. intros H. destruct (Hq H) as [H1 H2].
    split; [|exact H2]. cbn [g_rx g_cfg set_g_rx]. rewrite len_insert_at, Hrx, <- Hc. lia. }
  destruct (first_hs r) as [h|].
  - unfold insert_handshake13. apply wp_bind, wp_get. apply wp_bind.
    apply wp_mono with (P := fun _ s1 => Rq13 s s1 /\ g_rx s1 = g_rx s).
    { destruct (first_some _ _) as [d|]; [|wps; split; [apply Rq13_po|reflexivity]].
      apply wp_when; intros _; [|split; [apply Rq13_po|reflexivity]].
      split; [apply q13_flight_resend|symmetry; apply rx_flight_resend13]. }
    intros r0 s1 [H1 H2]. destruct r0 as [u|e|n]; [|exact H1|exact H1].
    unfold bsearch13. destruct (f_seq h <? _); [exact H1|].
    destruct (_ && _); [exact H1|].
    apply wp_bind, wp_bind, wp_draw13, wp_ret.
    destruct (e_bsearch _ _ _) as [found i]. destruct found; wps; try exact H1.
    + eapply (po_trans _ Rq13_po); [exact H1|]. split; [reflexivity|]. intros [K1 K2]. split; [|exact K2].
      cbn. rewrite len_set_nth. exact K1.
    + apply (Hins i (r :: inc) (set_g_rrn (fold_left note_rrn (r :: inc) (g_rrn s1)) (set_g_orc (g_orc s1 + 1) s1)));
        [|exact H2]. eapply (po_trans _ Rq13_po); [exact H1|]. qtriv13.
  - unfold insert_non_handshake13, bsearch13. apply wp_bind, wp_get.
    apply wp_bind, wp_bind, wp_draw13, wp_ret. destruct (e_bsearch _ _ _) as [found i]. destruct found; wps; [qtriv13|].
    apply (Hins _ _ (set_g_orc (g_orc s + 1) s)); [qtriv13|reflexivity].
Qed.

Ltac q13rx :=
  apply pres_modify; intros; first [qtriv13 | apply Rq13_rx_le; rewrite ?len_mark_run, ?len_mark_first; lia].
Lemma frq13 E : eng_frame13 E Rq13.
Proof.
  assert (P : forall p, pres Rq13 (eng13_parse_packet E p)).
  { intro p. unfold eng13_parse_packet. presauto Rq13_po ltac:(first [apply q13_insert|idtac]).
    fr13 ltac:(first [exact Rq13_po|qtriv13]). }
  assert (P1 : forall a b w, pres Rq13 (next_handshake13_gen a b w))
    by (intros; unfold next_handshake13_gen; presauto Rq13_po q13rx).
  assert (P2 : forall cap, pres Rq13 (poll_app_data13 cap))
    by (intros; unfold poll_app_data13; presauto Rq13_po q13rx).
  assert (P3 : forall cap, pres Rq13 (poll_packet_tx13 cap)).
  { intros cap s. unfold poll_packet_tx13. apply (wp_bind get _ (fun _ s' => Rq13 s s')), wp_get.
    destruct (g_tx s) as [|p r] eqn:Ht; [apply wp_ret, Rq13_po|]. destruct (cap <? len p); [apply wp_ret, Rq13_po|].
    apply wp_bind, wp_modify, wp_ret. split; [reflexivity|]. intros [H1 H2]. split; [exact H1|].
    rewrite Ht in H2. cbn. unfold len in *. cbn [length] in H2. lia. }
  assert (P4 : pres Rq13 reset_for_hello_retry).
  { apply pres_modify. intro s. split; [reflexivity|]. intros [H1 H2]. split; [|exact H2]. cbn.
    etransitivity; [apply len_filter|exact H1]. }
  assert (P5 : pres Rq13 eng13_abort).
  { apply pres_modify. intro s. split; [reflexivity|]. intros [H1 H2]. split; [exact H1|]. apply N.le_0_l. }
  assert (P6 : pres Rq13 (enable_peer_encryption13 E)).
  { intro s. unfold enable_peer_encryption13. apply (wp_bind (modify _) _ (fun _ s' => Rq13 s s')), wp_modify, wp_bind, wp_get.
    pose proof (split_epoch2_app (g_rx (set_g_penc true s))) as K. destruct (split_epoch2 _) as [a b]. cbn [fst snd] in K.
    apply wp_bind, wp_modify. eapply wp_mono; [apply (wp_pres Rq13), (pres_iterM _ Rq13_po); intro; apply P|].
    intros r0 s' H. eapply (po_trans _ Rq13_po); [|exact H]. split; [reflexivity|]. intros [H1 H2]. split; [|exact H2].
    cbn in *. rewrite <- K in H1. rewrite len_app' in H1. lia. }
  frame13_over
    ltac:(first [apply q13_cipher | apply q13_plain | apply P | apply P1 | apply P2 | apply P3 | apply P4 | apply P5 | apply P6])
    ltac:(first [exact Rq13_po|qtriv13|idtac]).
  apply Rq13_rx_le, len_skip_while.
Qed.

Lemma queues_bounded13 E cfg cert key h s : reach13 E cfg cert key h s ->
  len (g_rx (end13_eng s)) <= c_max_rx cfg /\ len (g_tx (end13_eng s)) <= c_max_tx cfg.
Proof.
  intros H. destruct (eng13_from E _ cfg cert key (frq13 E) h s H) as (e0 & H0 & Hc & Hq).
  assert (K : g_cfg e0 = cfg /\ qbound13 e0).
  { destruct H0 as [(b & n & ->)|(f & ->)]; (split; [reflexivity|]); split; apply N.le_0_l. }
  destruct K as [<- K]. rewrite Hc. apply Hq, K.
Qed.
