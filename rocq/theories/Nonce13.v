(** The ledger of the records a DTLS 1.3 endpoint sends. *)
From Verif Require Import Prelude PreludeFacts Types Codec Codec12 Codec13 Record12 Record13 Monad MonadFacts Timer
  Env Config Aead Prf Window SeqRecon Engine12 Queue12Proofs Client12 Engine13 Client13 Server13 Frame13 History12 History12Facts
  History13 Lift13 Trace13 Trace13Proofs Out13 Send13Proofs.

(** One record as sent: its epoch and number, the key that protects it (none for
    plaintext), its content type and content, and its bytes. *)
Record Sent13 := mkSent13 {
  z_epoch : N; z_seq : N; z_key : option Keys13; z_type : N; z_frag : bytes; z_wire : bytes }.
(** The bytes are those of the record with that number: plaintext, or sealed with the
    nonce made from the key's IV and the number. *)
Definition sent_ok (E : Env) (z : Sent13) : Prop :=
  z_seq z < MAX_SEQ /\
  match z_key z with
  | None => z_epoch z = 0 /\ z_wire z = s_plain13 (z_type z) 0 (z_seq z) (z_frag z)
  | Some k => exists cs i body, find13 E cs = Some i /\
      sealed13 E i k (z_epoch z) (z_seq z) (z_type z) (z_frag z) (z_wire z) body
  end.
(** A handshake record in an application epoch: a KeyUpdate. *)
Definition is_ku (z : Sent13) : bool := (z_type z =? CT_HS) && negb (z_epoch z =? 0) && negb (z_epoch z =? 2).
Definition kus (zs : list Sent13) : N := len (filter is_ku zs).
Definition enc (zs : list Sent13) : bytes := flat_map z_wire zs.

Definition last_case {A} (l : list A) : l <> [] -> exists q b, l = q ++ [b].
Proof. intros H. destruct (exists_last H) as (q & b & ->). eauto. Qed.
Lemma append_last_app d q (b : bytes) : append_last d (q ++ [b]) = q ++ [b ++ d].
Proof. unfold append_last. rewrite rev_app_distr. cbn [rev app]. rewrite rev_involutive. reflexivity. Qed.

Lemma emit_rss D tx rss (app : bool) z : D ++ tx = map enc rss -> (app = true -> tx <> []) ->
  exists rss', D ++ (if app then append_last (z_wire z) tx else tx ++ [z_wire z]) = map enc rss' /\
    concat rss' = concat rss ++ [z].
Proof.
  intros H Ha. destruct app.
  - destruct (last_case tx (Ha eq_refl)) as (q & b & ->). rewrite append_last_app.
    destruct rss as [|r0 rs0] eqn:Hr; [destruct D; [destruct q|]; discriminate|].
    destruct (last_case (r0 :: rs0)) as (rs & l & Hl); [discriminate|]. rewrite Hl in *. clear Hl Hr r0 rs0.
    rewrite map_app, app_assoc in H. cbn [map] in H. apply app_inj_tail in H. destruct H as [H ->].
    exists (rs ++ [l ++ [z]]). rewrite map_app, app_assoc, H. cbn [map].
    split.
    + replace (enc (l ++ [z])) with (enc l ++ z_wire z); [reflexivity|].
      unfold enc. rewrite flat_map_app. cbn [flat_map]. rewrite app_nil_r. reflexivity.
    + rewrite !concat_app. cbn [concat]. rewrite !app_nil_r, app_assoc. reflexivity.
  - exists (rss ++ [[z]]). rewrite map_app, app_assoc, H. split.
    + cbn [map]. replace (enc [z]) with (z_wire z); [reflexivity|]. unfold enc. cbn [flat_map]. rewrite app_nil_r. reflexivity.
    + rewrite concat_app. cbn [concat]. rewrite app_nil_r. reflexivity.
Qed.

(** Of two records of one epoch the later one has the larger number and the same key.
    [q] says whether the handshake epoch is included. *)
Definition ordered (q : bool) (a b : Sent13) : Prop :=
  z_epoch a = z_epoch b -> (z_epoch a = 2 -> q = true) -> z_key a = z_key b /\ z_seq a < z_seq b.

(** Where the counters stand, relative to the records sent. *)
Definition now_ok (q : bool) (lev : N) (e : Eng13) (z : Sent13) : Prop :=
  (z_epoch z = 0 -> z_key z = None /\ z_seq z < g_seq0 e) /\
  (z_epoch z = 2 -> q = true -> z_seq z < g_hs_seq e /\ z_key z = g_hs_send e) /\
  (z_epoch z <> 0 -> z_epoch z <> 2 -> 2 <= lev /\ 3 <= z_epoch z <= g_epoch e /\
    (z_epoch z = g_epoch e -> z_seq z < g_app_seq e /\ (g_app_send e = None \/ z_key z = g_app_send e))).
Definition saved_ok (lev : N) (e : Eng13) (en : Entry13) : Prop :=
  en13_epoch en = 0 \/ en13_epoch en = 2 \/ (2 <= lev /\ en13_epoch en = g_epoch e /\ (en13_ctype en = CT_HS -> 3 <= lev)).

(** Levels: 0 before handshake keys, 1 before records in application epochs, 2 before
    key updates, 3 connected. *)
Record Led (E : Env) (q : bool) (lev : N) (os : list Output) (e : Eng13) (rss : list (list Sent13)) : Prop := mkLed {
  l_wire : datagrams os ++ g_tx e = map enc rss;
  l_ok : Forall (sent_ok E) (concat rss);
  l_prev : g_prev e = None;
  l_keys : lev = 0 -> q = true -> g_hs_send e = None;
  l_early : lev < 3 -> g_inflight e = false /\ g_epoch e = 3 /\ kus (concat rss) = 0;
  l_saved : Forall (saved_ok lev e) (g_saved e);
  l_epoch : kus (concat rss) < 65533 ->
    3 <= g_epoch e /\ g_epoch e - 3 + (if g_inflight e then 1 else 0) <= kus (concat rss);
  l_order : kus (concat rss) < 65533 ->
    ForallOrdPairs (ordered q) (concat rss) /\ Forall (now_ok q lev e) (concat rss) }.
Definition LI (E : Env) (q : bool) (lev : N) (os : list Output) (e : Eng13) : Prop := exists rss, Led E q lev os e rss.

Lemma FOP_snoc {A} (R : A -> A -> Prop) l x : ForallOrdPairs R l -> Forall (fun y => R y x) l -> ForallOrdPairs R (l ++ [x]).
Proof.
  induction 1 as [|a l H1 H2 IH]; intros H; [repeat constructor|]. inversion H; subst. cbn [app]. constructor; [|auto].
  apply Forall_app. split; auto.
Qed.
Lemma FOP_app_l {A} (R : A -> A -> Prop) l l' : ForallOrdPairs R (l ++ l') -> ForallOrdPairs R l.
Proof.
  induction l as [|a l IH]; intros H; [constructor|]. inversion H; subst. constructor; [|auto].
  apply Forall_app in H2. apply H2.
Qed.
Lemma kus_app a b : kus (a ++ b) = kus a + kus b.
Proof. unfold kus. rewrite filter_app. apply len_app. Qed.

Section Ledger.
Variable E : Env.
Variable q : bool.
Variable lev : N.
Variable os : list Output.
Notation I := (LI E q lev os).
Definition RI (a b : Eng13) : Prop := I a -> I b.
Lemma RI_po : preorder RI.
Proof. apply preorder_inv. Qed.

(** Changes to fields the ledger does not mention. *)
Lemma LI_frame a b : g_tx b = g_tx a -> g_prev b = g_prev a -> g_hs_send b = g_hs_send a -> g_inflight b = g_inflight a ->
  g_saved b = g_saved a -> g_epoch b = g_epoch a -> g_seq0 b = g_seq0 a -> g_hs_seq b = g_hs_seq a ->
  g_app_seq b = g_app_seq a -> g_app_send b = g_app_send a -> I a -> I b.
Proof.
  intros H1 H2 H3 H4 H5 H6 H7 H8 H9 H10 (rss & L). exists rss.
  destruct L as [L1 L2 L3 L4 L5 L6 L7 L8].
  constructor; rewrite ?H1, ?H2, ?H3, ?H4, ?H5, ?H6; auto.
  - eapply Forall_impl; [|exact L6]. unfold saved_ok. rewrite H6. auto.
  - intros K. destruct (L8 K) as [L9 L10]. split; [exact L9|]. eapply Forall_impl; [|exact L10].
    unfold now_ok. rewrite H3, H6, H7, H8, H9, H10. auto.
Qed.

(** Saving an entry. *)
Lemma LI_keep sv en a : (sv = true -> saved_ok lev a en) -> I a -> I (keep13 sv en a).
Proof.
  intros Hs (rss & L). destruct sv; [|exists rss; exact L]. exists rss.
  destruct L as [L1 L2 L3 L4 L5 L6 L7 L8]. constructor; auto.
  cbn [keep13 g_saved set_g_saved]. apply Forall_app. split; [exact L6|]. constructor; [exact (Hs eq_refl)|constructor].
Qed.
Lemma LI_saved v a : Forall (saved_ok lev a) v -> I a -> I (set_g_saved v a).
Proof.
  intros Hs (rss & L). exists rss. destruct L as [L1 L2 L3 L4 L5 L6 L7 L8]. constructor; auto.
Qed.

(** Sending a record. *)
Lemma LI_plain ct sv f : pres RI (create_plain13 ct sv f).
Proof.
  intros s H. pose proof (create_plain_spec ct sv f s) as W. unfold wp in W.
  destruct (create_plain13 ct sv f s) as [r s']. cbv zeta in W. cbn [fst snd] in W |- *.
  assert (Hsv : sv = true -> saved_ok lev s (mkEntry13 ct 0 (g_seq0 s) f false)) by (intros _; left; reflexivity).
  destruct r as [u|x|n].
  - destruct W as (Hm & Hq & _ & ->).
    apply (LI_keep _ _ _ Hsv) in H. destruct H as (rss & L). set (s1 := keep13 _ _ _) in *.
    assert (Hs1 : g_tx s1 = g_tx s /\ g_seq0 s1 = g_seq0 s) by (destruct sv; auto). destruct Hs1 as [Ht H0].
    destruct L as [L1 L2 L3 L4 L5 L6 L7 L8].
    set (z := mkSent13 0 (g_seq0 s) None ct f (s_plain13 ct 0 (g_seq0 s) f)).
    destruct (emit_rss _ _ _ (can_append13 s (13 + len f)) z L1) as (rss' & R1 & R2).
    { rewrite Ht. apply can_append13_nonnil. }
    assert (Hk : kus (concat rss') = kus (concat rss)).
    { rewrite R2, kus_app. unfold kus at 2. cbn [filter]. unfold is_ku at 1. cbn. rewrite andb_false_r. apply N.add_0_r. }
    exists rss'. unfold emit13. change (z_wire z) with (s_plain13 ct 0 (g_seq0 s) f) in R1.
    assert (K : forall s2, g_tx s2 = (if can_append13 s (13 + len f) then append_last (s_plain13 ct 0 (g_seq0 s) f) (g_tx s1) else g_tx s1 ++ [s_plain13 ct 0 (g_seq0 s) f]) ->
      g_prev s2 = g_prev s1 -> g_hs_send s2 = g_hs_send s1 -> g_inflight s2 = g_inflight s1 -> g_saved s2 = g_saved s1 ->
      g_epoch s2 = g_epoch s1 -> g_seq0 s2 = g_seq0 s1 + 1 -> g_hs_seq s2 = g_hs_seq s1 -> g_app_seq s2 = g_app_seq s1 ->
      g_app_send s2 = g_app_send s1 -> Led E q lev os s2 rss').
    { intros s2 K1 K2 K3 K4 K5 K6 K7 K8 K9 K10.
      constructor; rewrite ?K1, ?K2, ?K3, ?K4, ?K5, ?K6; auto.
      - rewrite R2. apply Forall_app. split; [exact L2|]. constructor; [|constructor]. split; [exact Hm|]. split; reflexivity.
      - rewrite Hk. exact L5.
      - eapply Forall_impl; [|exact L6]. unfold saved_ok. rewrite K6. auto.
      - rewrite Hk. exact L7.
      - rewrite Hk. intros K. destruct (L8 K) as [L9 L10]. rewrite R2. split.
        + apply FOP_snoc; [exact L9|]. eapply Forall_impl; [|exact L10]. intros y (Y1 & Y2 & Y3) Y4 _. cbn in Y4.
          destruct (Y1 Y4) as [Y5 Y6]. split; [exact Y5|]. rewrite H0 in Y6. exact Y6.
        + apply Forall_app. split.
          * eapply Forall_impl; [|exact L10]. unfold now_ok. rewrite K3, K6, K7, K8, K9, K10.
            intros y (Y1 & Y2 & Y3). split; [|auto]. intros Y4. destruct (Y1 Y4). split; [assumption|lia].
          * constructor; [|constructor]. split; [|split]; cbn.
            -- intros _. split; [reflexivity|]. lia.
            -- discriminate.
            -- intros C. contradiction C; reflexivity. }
    destruct (can_append13 s (13 + len f)); apply K; try reflexivity; subst s1; destruct sv; reflexivity.
  - destruct W as [_ ->]. apply LI_keep; auto.
  - destruct W as (_ & _ & -> & _). exact H.
Qed.

(** The epochs a protected record may be sent in. *)
Definition ep_ok (s : Eng13) (ct ep : N) : Prop := ep = 2 \/ (2 <= lev /\ ep = g_epoch s /\ (ct = CT_HS -> 3 <= lev)).

Lemma Led_inflight e rss : Led E q lev os e rss -> 3 <= lev ->
  (kus (concat rss) < 65533 -> g_epoch e - 3 + 1 <= kus (concat rss)) -> I (set_g_inflight true e).
Proof.
  intros [L1 L2 L3 L4 L5 L6 L7 L8] Hl Hk. exists rss. constructor; auto.
  - intros K. lia.
  - intros K. cbn. destruct (L7 K). split; [assumption|]. apply Hk, K.
Qed.
Lemma LI_cipher_ct ct ep sv f s : ep_ok s ct ep -> I s -> 
  wp (create_cipher13 E ct ep sv f) (fun r s' => I s' /\
    (match r with Ok _ => ct = CT_HS -> 3 <= lev -> ep = g_epoch s -> I (set_g_inflight true s') | _ => True end)) s.
Proof.
  intros Hep H. pose proof (create_cipher_spec E ct ep sv f s) as W. unfold wp in W |- *.
  destruct (create_cipher13 E ct ep sv f s) as [r s']. cbv zeta in W. cbn [fst snd] in W |- *.
  assert (Hsv : forall sq, sv = true -> saved_ok lev s (mkEntry13 ct ep sq f false)).
  { intros sq _. unfold saved_ok. cbn [en13_epoch]. destruct Hep as [->|(H1 & -> & H2)]; auto. }
  destruct r as [u|x|n].
  - destruct W as (cs & i & k & body & rec & Hcs & Hi & Hk & Hsl & Hm & Hq & _ & ->).
    assert (Hp : g_prev s = None) by (destruct H as (rss & L); apply L).
    set (sq := ctx_seq s (ctx13 s ep)) in *.
    apply (LI_keep _ _ _ (Hsv sq)) in H. destruct H as (rss & L).
    set (s1 := keep13 _ _ _) in *.
    assert (Hs1 : g_tx s1 = g_tx s /\ g_hs_seq s1 = g_hs_seq s /\ g_app_seq s1 = g_app_seq s /\ g_hs_send s1 = g_hs_send s /\
      g_app_send s1 = g_app_send s /\ g_epoch s1 = g_epoch s) by (subst s1; destruct sv; repeat split).
    destruct Hs1 as (Ht & Hhs & Hap & Hkh & Hka & Hge).
    destruct L as [L1 L2 L3 L4 L5 L6 L7 L8].
    set (z := mkSent13 ep sq (Some k) ct f rec).
    destruct (emit_rss _ _ _ (can_append13 s (5 + len body)) z L1) as (rss' & R1 & R2).
    { rewrite Ht. apply can_append13_nonnil. }
    assert (Hz : sent_ok E z) by (split; [exact Hm|]; exists cs, i, body; split; assumption).
    assert (Hkk : kus (concat rss) <= kus (concat rss')) by (rewrite R2, kus_app; lia).
    set (e2 := emit13 _ _ _).
    assert (Ke : g_tx e2 = (if can_append13 s (5 + len body) then append_last rec (g_tx s1) else g_tx s1 ++ [rec]) /\
      g_prev e2 = g_prev s1 /\ g_hs_send e2 = g_hs_send s1 /\ g_inflight e2 = g_inflight s1 /\ g_saved e2 = g_saved s1 /\
      g_epoch e2 = g_epoch s1 /\ g_seq0 e2 = g_seq0 s1 /\
      g_hs_seq e2 = g_hs_seq s1 + (match ctx13 s ep with CtxHs => 1 | _ => 0 end) /\
      g_app_seq e2 = g_app_seq s1 + (match ctx13 s ep with CtxApp => 1 | _ => 0 end) /\ g_app_send e2 = g_app_send s1).
    { subst e2. unfold emit13, bump_seq. destruct (can_append13 s (5 + len body)); destruct (ctx13 s ep); cbv zeta;
        repeat match goal with |- context [if ?b then _ else _] => lazymatch b with can_append13 _ _ => fail | sv => fail | _ => destruct b end end;
        repeat split; cbn; rewrite ?N.add_0_r; reflexivity. }
    destruct Ke as (K1 & K2 & K3 & K4 & K5 & K6 & K7 & K8 & K9 & K10). clearbody e2.
    change (z_wire z) with rec in R1.
    assert (LL : Led E q lev os e2 rss').
    2:{ split; [exists rss'; exact LL|]. intros Q1 Q2 Q3. apply (Led_inflight _ _ LL Q2). intros K.
      destruct L7 as [N1 N2]; [lia|]. rewrite R2, kus_app. unfold kus at 2. cbn [filter]. unfold is_ku at 1. cbn [z z_type z_epoch].
      rewrite Q1, Q3. rewrite Hge in N1, N2. replace (g_epoch s =? 0) with false by lia. replace (g_epoch s =? 2) with false by lia.
      cbn. rewrite K6, Hge. change (len [z]) with 1. lia. }
    constructor; rewrite ?K1, ?K2, ?K3, ?K4, ?K5, ?K6; auto.
    + rewrite R2. apply Forall_app. split; [exact L2|]. constructor; [exact Hz|constructor].
    + intros Hl. destruct (L5 Hl) as (Q1 & Q2 & Q3). split; [exact Q1|]. split; [exact Q2|].
      rewrite R2, kus_app, Q3. unfold kus. cbn [filter]. unfold is_ku. cbn [z z_type z_epoch].
      destruct Hep as [->|(P1 & P2 & P3)]; [destruct (ct =? CT_HS); reflexivity|].
      destruct (ct =? CT_HS) eqn:Hct; [|reflexivity]. apply N.eqb_eq in Hct. specialize (P3 Hct). lia.
    + eapply Forall_impl; [|exact L6]. unfold saved_ok. rewrite K6. auto.
    + intros K. destruct L7 as [N1 N2]; [lia|]. split; [exact N1|lia].
    + intros K. assert (Kl : kus (concat rss) < 65533) by lia. destruct (L8 Kl) as [L9 L10]. rewrite R2.
      destruct (L7 Kl) as [N1 N2].
      assert (Hc : (ep = 2 /\ ctx13 s ep = CtxHs) \/ (ep = g_epoch s /\ 3 <= ep /\ 2 <= lev /\ ctx13 s ep = CtxApp)).
      { unfold ctx13. rewrite Hp. cbn [is_some andb]. destruct Hep as [->|(Q1 & -> & _)]; [left; auto|right].
        assert (3 <= g_epoch s) by lia. replace (g_epoch s =? 2) with false by lia. auto. }
      assert (Hnew : forall y, now_ok q lev s1 y -> ordered q y z).
      { intros y (Y1 & Y2 & Y3) Y4 Y5. cbn [z z_epoch z_key z_seq] in *. subst sq.
        destruct Hc as [[Q1 Q2]|(Q1 & Q2 & Q3 & Q4)]; rewrite ?Q2, ?Q4 in *; cbn [ctx_keys ctx_seq] in *.
        - rewrite Q1 in Y4. destruct (Y2 Y4 (Y5 Y4)) as [Z1 Z2]. split; [congruence|lia].
        - destruct Y3 as (Z1 & Z2 & Z3); [lia|lia|]. destruct Z3 as [Z3 Z4]; [congruence|].
          split; [|lia]. destruct Z4 as [Z4|Z4]; congruence. }
      split.
      * apply FOP_snoc; [exact L9|]. eapply Forall_impl; [|exact L10]. exact Hnew.
      * apply Forall_app. split.
        -- eapply Forall_impl; [|exact L10]. unfold now_ok. rewrite K3, K6, K7, K8, K9, K10.
           intros y (Y1 & Y2 & Y3). split; [exact Y1|]. split.
           ++ intros Z1 Z2. destruct (Y2 Z1 Z2). split; [lia|assumption].
           ++ intros Z1 Z2. destruct (Y3 Z1 Z2) as (Z3 & Z4 & Z5). split; [exact Z3|]. split; [exact Z4|].
              intros Z6. destruct (Z5 Z6). split; [lia|assumption].
        -- constructor; [|constructor]. unfold now_ok. rewrite K3, K6, K7, K8, K9, K10. cbn [z z_epoch z_key z_seq].
           subst sq. destruct Hc as [[Q1 Q2]|(Q1 & Q2 & Q3 & Q4)]; rewrite ?Q2, ?Q4 in *; cbn [ctx_keys ctx_seq] in *.
           ++ split; [lia|]. split; [|lia]. intros _ _. split; [lia|congruence].
           ++ split; [lia|]. split; [lia|]. intros _ _. split; [exact Q3|]. split; [lia|]. intros _. split; [lia|right; congruence].
  - destruct W as [_ ->]. split; [|exact Logic.I]. apply LI_keep; auto.
  - split; [|exact Logic.I]. destruct W as [-> | ->]; [exact H|]. apply LI_keep; auto.
Qed.
Lemma LI_cipher ct ep sv f s : ep_ok s ct ep -> I s -> I (snd (create_cipher13 E ct ep sv f s)).
Proof. intros H1 H2. apply (LI_cipher_ct ct ep sv f s H1 H2). Qed.
Lemma LI_cipher2 ct sv f : pres RI (create_cipher13 E ct 2 sv f).
Proof. intros s H. apply LI_cipher; [left; reflexivity|exact H]. Qed.

Ltac nset := intros; unfold RI; apply LI_frame; reflexivity.
Ltac nhyp H := refine (LI_frame _ _ _ _ _ _ _ _ _ _ _ _ H); reflexivity.
Ltac nmod := apply pres_modify; nset.

Lemma LI_frag fuel mt total seq ep prot : ep = 0 \/ ep = 2 -> forall off rest,
  pres RI (frag_loop13 E fuel mt total seq ep prot off rest).
Proof.
  intros Hep. induction fuel as [|fuel IH]; intros off rest; cbn [frag_loop13]; [destruct rest; presauto RI_po idtac|].
  destruct Hep as [-> | ->]; cbn [N.eqb]; presauto RI_po ltac:(first [apply LI_plain|apply LI_cipher2|apply IH]).
Qed.
Lemma LI_create_hs mt mk : pres RI mk -> pres RI (create_handshake13 E mt mk).
Proof.
  intros H. unfold create_handshake13.
  assert (Hep : mt13_epoch mt = 0 \/ mt13_epoch mt = 2) by (unfold mt13_epoch; destruct (_ || _); auto).
  destruct Hep as [-> | ->]; cbn [N.eqb];
    presauto RI_po ltac:(first [exact H|apply (op_suite_provider E _ RI_po)|apply LI_frag; auto|nmod|apply LI_plain|apply LI_cipher2]).
Qed.

Lemma LI_flight_begin : pres RI (flight_begin13 E).
Proof.
  unfold flight_begin13. presauto RI_po ltac:(first [apply op_draw13; [exact RI_po|nset]|idtac]).
  apply pres_modify. intros s H. apply (LI_frame (set_g_saved [] s)); try reflexivity. apply LI_saved; [constructor|exact H].
Qed.

(** Retransmission. *)
Lemma epoch_cipher ct ep sv f : pres (fun a b => g_epoch a = g_epoch b) (create_cipher13 E ct ep sv f).
Proof. apply op_create_cipher; try (intros; reflexivity); apply preorder_eq. Qed.
Lemma epoch_plain ct sv f : pres (fun a b => g_epoch a = g_epoch b) (create_plain13 ct sv f).
Proof. apply op_create_plain; try (intros; reflexivity); apply preorder_eq. Qed.
Lemma LI_resend_loop es : forall s, Forall (saved_ok lev s) es -> I s ->
  wp (resend_loop13 E es) (fun r s' => I s' /\ g_epoch s' = g_epoch s /\
    match r with Ok es' => Forall (saved_ok lev s) es' | _ => True end) s.
Proof.
  induction es as [|e es IH]; intros s Hes H; cbn [resend_loop13].
  - apply wp_ret. auto.
  - inversion Hes as [|? ? H1 H2]; subst. destruct (en13_acked e).
    + apply wp_bind. eapply wp_mono; [apply (IH s H2 H)|]. intros r s' (K1 & K2 & K3).
      destruct r as [es'|x|n]; [apply wp_ret; auto|auto..].
    + apply wp_bind, wp_get, wp_bind.
      eapply wp_mono with (P := fun _ s' => I s' /\ g_epoch s' = g_epoch s).
      { destruct (en13_epoch e =? 0) eqn:H0.
        - split; [apply LI_plain, H|symmetry; apply epoch_plain].
        - split; [apply LI_cipher; [|exact H]|symmetry; apply epoch_cipher].
          unfold saved_ok in H1. unfold ep_ok. destruct H1 as [H1|[H1|H1]]; [lia|auto|auto]. }
      intros r s1 [K1 K2]. destruct r as [u|x|n]; [|auto..].
      apply wp_bind. eapply wp_mono; [apply (IH s1)|].
      { eapply Forall_impl; [|exact H2]. unfold saved_ok. rewrite K2. auto. }
      { exact K1. }
      intros r s2 (Q1 & Q2 & Q3). destruct r as [es'|x|n]; cbn; [|split; [exact Q1|split; [congruence|exact Logic.I]]..].
      apply wp_ret. split; [exact Q1|]. split; [congruence|]. constructor; [exact H1|].
      eapply Forall_impl; [|exact Q3]. unfold saved_ok. rewrite K2. auto.
Qed.
Lemma LI_resend : pres RI (flight_resend13 E).
Proof.
  intros s H. unfold flight_resend13. apply (wp_bind get _ (fun _ s' => I s')), wp_get, wp_bind, wp_modify, wp_bind.
  assert (Hs : Forall (saved_ok lev s) (g_saved s)) by (destruct H as (rss & L); apply L).
  assert (H1 : I (set_g_sealed true (set_g_saved [] s))).
  { apply (LI_frame (set_g_saved [] s)); try reflexivity. apply LI_saved; [constructor|exact H]. }
  eapply wp_mono; [apply (LI_resend_loop (g_saved s) (set_g_sealed true (set_g_saved [] s)) Hs H1)|].
  intros r s' (K1 & K2 & K3). destruct r as [es|x|n]; [|exact K1..].
  apply wp_modify. apply LI_saved; [|exact K1]. eapply Forall_impl; [|exact K3]. unfold saved_ok. rewrite K2. auto.
Qed.

Lemma LI_insert_hs inc r h : pres RI (insert_handshake13 E inc r h).
Proof.
  unfold insert_handshake13, bsearch13.
  presauto RI_po ltac:(first [apply LI_resend|apply op_draw13; [exact RI_po|nset]|nmod]).
Qed.
Lemma LI_flush now : pres RI (maybe_flush_ack E now).
Proof. unfold maybe_flush_ack. presauto RI_po ltac:(first [apply LI_cipher2|nmod]). Qed.
Lemma LI_timeout now : pres RI (eng13_handle_timeout E now).
Proof.
  unfold eng13_handle_timeout.
  presauto RI_po ltac:(first [apply LI_flush|apply LI_resend|apply op_draw13; [exact RI_po|nset]|nmod
    |apply pres_modify; intro s; destruct (maybe_ack_set now s) as [d ->]; nset]).
Qed.
Lemma LI_cancel : pres RI cancel_flights.
Proof.
  apply pres_modify. intros s H. apply (LI_frame (set_g_saved [] s)); try reflexivity. apply LI_saved; [constructor|exact H].
Qed.

(** Acknowledgements: the sending keys change only when the KeyUpdate is
    acknowledged. *)
Lemma mark_saved es s l : Forall (saved_ok lev s) l -> Forall (saved_ok lev s) (map (mark_acked es) l).
Proof.
  intros H. apply Forall_map. eapply Forall_impl; [|exact H]. intros en K. unfold mark_acked, saved_ok in *.
  destruct (existsb _ _); exact K.
Qed.
Lemma wp_same {A} (m : M Eng13 A) (Q : res A -> Eng13 -> Prop) s : pres (fun a b => a = b) m -> (forall r, Q r s) -> wp m Q s.
Proof. intros H1 H2. unfold wp. rewrite <- (H1 s). apply H2. Qed.
Lemma LI_process_ack d : pres RI (process_ack E d).
Proof.
  intros s H. unfold process_ack. destruct (p_ack d) as [es|]; [|exact H].
  apply (wp_bind (modify _) _ (fun _ s' => I s')), wp_modify.
  assert (H0 : I (set_g_saved (map (mark_acked es) (g_saved s)) s)).
  { apply LI_saved; [|exact H]. apply mark_saved. destruct H as (rss & L); apply L. }
  revert H0. generalize (set_g_saved (map (mark_acked es) (g_saved s)) s). clear s H. intros s H.
  apply wp_bind, wp_get, wp_bind.
  apply wp_mono with (P := fun _ s' => I s').
  { apply wp_when; intros _; [|exact H]. apply wp_modify. apply (LI_frame (set_g_saved [] s)); try reflexivity.
    apply LI_saved; [constructor|exact H]. }
  clear s H. intros r s H. destruct r as [u|x|n]; [|exact H..].
  apply wp_bind, wp_get. apply wp_when; intros Hw; [|exact H].
  assert (Hf : g_inflight s = true) by (destruct (g_inflight s); [reflexivity|discriminate]). clear Hw.
  apply wp_bind. unfold update_send_keys. apply wp_bind, wp_get.
  destruct (g_app_send s) as [cur|] eqn:Hc; [|apply wp_fail; exact H].
  (* without keys: nothing can be sent, the ledger still stands *)
  assert (Hnone : I (set_g_app_send None s)).
  { destruct H as (rss & L). exists rss. destruct L as [L1 L2 L3 L4 L5 L6 L7 L8]. constructor; auto.
    intros K. destruct (L8 K) as [L9 L10]. split; [exact L9|]. eapply Forall_impl; [|exact L10].
    intros z (Z1 & Z2 & Z3). split; [exact Z1|]. split; [exact Z2|]. intros Q1 Q2. destruct (Z3 Q1 Q2) as (Q3 & Q4 & Q5).
    split; [exact Q3|]. split; [exact Q4|]. intros Q6. split; [apply Q5, Q6|left; reflexivity]. }
  apply wp_bind, wp_modify, wp_bind.
  pose proof (@preorder_eq Eng13 Eng13 (fun s => s)) as PO.
  apply (wp_same _ _ _ (op_next_secret E _ PO _)). intros r1. destruct r1 as [next|x|n]; [|exact Hnone..].
  apply wp_bind. apply (wp_same _ _ _ (op_derive_epoch_keys E _ PO _)). intros r1. destruct r1 as [ks|x|n]; [|exact Hnone..].
  clear Hnone. apply wp_bind, wp_modify, wp_bind, wp_modify, wp_bind. unfold wp at 1, draw13. cbn [fst snd].
  apply wp_modify, wp_modify.
  destruct H as (rss & L). exists rss. destruct L as [L1 L2 L3 L4 L5 L6 L7 L8].
  constructor; cbn; auto.
  - intros K. destruct (L5 K). congruence.
  - intros K. destruct (L7 K) as [N1 N2]. rewrite Hf in N2.
    assert (Hu : u16 (g_epoch s + 1) = g_epoch s + 1) by (unfold u16; apply N.mod_small; lia).
    rewrite Hu. lia.
  - intros K. destruct (L8 K) as [L9 L10]. split; [exact L9|]. eapply Forall_impl; [|exact L10].
    destruct (L7 K) as [N1 N2]. rewrite Hf in N2.
    assert (Hu : u16 (g_epoch s + 1) = g_epoch s + 1) by (unfold u16; apply N.mod_small; lia).
    intros z (Z1 & Z2 & Z3). split; [exact Z1|]. split; [exact Z2|]. intros Q1 Q2. destruct (Z3 Q1 Q2) as (Q3 & Q4 & Q5).
    cbn. rewrite Hu. split; [exact Q3|]. split; [lia|]. lia.
Qed.

Lemma LI_parse p : pres RI (eng13_parse_packet E p).
Proof.
  fr13o ltac:(idtac; lazymatch goal with
    | |- pres _ (insert_handshake13 _ _ _ _) => apply LI_insert_hs
    | |- pres _ (process_ack _ _) => apply LI_process_ack
    end) ltac:(first [exact RI_po|nset|idtac]).
Qed.
Lemma LI_enable : pres RI (enable_peer_encryption13 E).
Proof.
  fr13o ltac:(idtac; lazymatch goal with
    | |- pres _ (insert_handshake13 _ _ _ _) => apply LI_insert_hs
    | |- pres _ (process_ack _ _) => apply LI_process_ack
    end) ltac:(first [exact RI_po|nset|idtac]).
Qed.
Lemma LI_send_ack sv : 2 <= lev -> pres RI (send_ack_inner E sv).
Proof.
  intros Hl s H. unfold send_ack_inner. apply (wp_bind get _ (fun _ s' => I s')), wp_get.
  destruct (g_rrn s) as [|x l]; [exact H|]. apply wp_bind, wp_modify. apply LI_cipher.
  - destruct (is_some _); [right; split; [exact Hl|split; [reflexivity|discriminate]]|left; reflexivity].
  - nhyp H.
Qed.
Lemma LI_send_ack_retr : 2 <= lev -> pres RI (send_ack_retransmittable E).
Proof.
  intros Hl. unfold send_ack_retransmittable. presauto RI_po ltac:(first [apply (LI_send_ack true Hl)|idtac]).
  apply pres_modify. intros s H. apply LI_saved; [constructor|exact H].
Qed.
Lemma LI_app_cipher ct f ep : 3 <= lev -> pres (fun a b => g_epoch a = ep /\ I a -> g_epoch b = ep /\ I b) (create_cipher13 E ct ep false f).
Proof.
  intros Hl s [He H]. split; [rewrite <- He; symmetry; apply epoch_cipher|].
  apply LI_cipher; [right; split; [lia|split; auto]|exact H].
Qed.
Lemma LI_key_update b : 3 <= lev -> pres RI (create_key_update E b).
Proof.
  intros Hl s H. unfold create_key_update. apply (wp_bind (flight_begin13 E) _ (fun _ s' => I s')).
  eapply wp_mono; [apply (wp_pres RI); exact LI_flight_begin|]. intros r s1 H1. specialize (H1 H). clear s H.
  destruct r as [u|x|n]; [|exact H1..]. apply wp_bind, wp_get, wp_bind, wp_modify.
  set (s2 := set_g_next_hs (u16 (g_next_hs s1 + 1)) s1).
  assert (H2 : I s2) by (nhyp H1).
  set (f := s_hs_header MT_KeyUpdate 1 (g_next_hs s1) 0 1 ++ [if b then 1 else 0]).
  change (g_epoch s1) with (g_epoch s2). clearbody s2 f. clear s1 H1.
  apply wp_bind.
  eapply wp_mono; [apply (LI_cipher_ct CT_HS (g_epoch s2) true f s2); [right; split; [lia|split; [reflexivity|intros _; lia]]|exact H2]|].
  intros r s' [K1 K2]. destruct r as [v|x|n]; [|exact K1..]. apply wp_modify. apply K2; auto.
Qed.

(** Operations that are only used at some levels. *)
Lemma LI_install_app c sv : lev < 2 -> pres RI (install_application_keys E c sv).
Proof.
  intros Hl. unfold install_application_keys. apply (pres_bind _ RI_po); [apply (pres_get _ RI_po)|]. intros s0.
  destruct (if g_client s0 then _ else _) as [a b].
  pose proof (@preorder_eq Eng13 Eng13 (fun s => s)) as PO.
  assert (Hsame : forall v s, I s -> I (set_g_app_seq 0 (set_g_epoch 3 (set_g_app_send v s))) /\ I (set_g_app_send v s)).
  { intros v s (rss & L). destruct L as [L1 L2 L3 L4 L5 L6 L7 L8]. destruct (L5 ltac:(lia)) as (Q1 & Q2 & Q3).
    split; exists rss; (constructor; cbn; auto).
    - eapply Forall_impl; [|exact L6]. unfold saved_ok. cbn. intros x K. lia.
    - intros K. specialize (L7 K). rewrite Q2 in L7. exact L7.
    - intros K. destruct (L8 K) as [N1 N2]. split; [exact N1|]. eapply Forall_impl; [|exact N2].
      intros z (Z1 & Z2 & Z3). split; [exact Z1|]. split; [exact Z2|]. intros K1 K2. destruct (Z3 K1 K2). lia.
    - intros K. destruct (L8 K) as [N1 N2]. split; [exact N1|]. eapply Forall_impl; [|exact N2].
      intros z (Z1 & Z2 & Z3). split; [exact Z1|]. split; [exact Z2|]. intros K1 K2. destruct (Z3 K1 K2). lia. }
  apply (pres_bind _ RI_po); [apply (op_derive_epoch_keys E _ RI_po)|]. intros ks.
  apply (pres_bind _ RI_po); [apply pres_modify; intros s H; apply Hsame, H|]. intros _.
  apply (pres_bind _ RI_po); [apply (op_derive_epoch_keys E _ RI_po)|]. intros kr.
  apply (pres_bind _ RI_po); [apply op_push_recv; [exact RI_po|nset]|]. intros _.
  apply pres_modify. intros s H. destruct (Hsame (g_app_send s) s H) as [K _]. destruct s; exact K.
Qed.
Lemma no_hs e rss : Led E q lev os e rss -> g_hs_send e = None -> q = true -> kus (concat rss) < 65533 ->
  Forall (fun z => z_epoch z <> 2) (concat rss).
Proof.
  intros L Hn Hq K. destruct (l_order _ _ _ _ _ _ L K) as [_ H1]. pose proof (l_ok _ _ _ _ _ _ L) as H2.
  rewrite Forall_forall in *. intros z Hz He. destruct (H1 z Hz) as (_ & Z & _). destruct (Z He Hq) as [_ Z1].
  specialize (H2 z Hz). destruct H2 as [_ H2]. rewrite Z1, Hn in H2. destruct H2. congruence.
Qed.
Lemma LI_hs_fields v n s : (q = false \/ g_hs_send s = None) -> (lev = 0 -> q = true -> v = None) -> I s ->
  I (set_g_hs_seq n (set_g_hs_send v s)).
Proof.
  intros Hc Hv (rss & L). exists rss. pose proof (fun a b => no_hs _ _ L a b) as Hno.
  destruct L as [L1 L2 L3 L4 L5 L6 L7 L8]. constructor; auto.
  intros K. destruct (L8 K) as [L9 L10]. split; [exact L9|]. 
  assert (Hz : q = true -> Forall (fun z => z_epoch z <> 2) (concat rss)).
  { intros Hq. destruct Hc as [Hc|Hc]; [congruence|]. apply Hno; assumption. }
  rewrite Forall_forall in L10 |- *. intros z Iz. destruct (L10 z Iz) as (Z1 & Z2 & Z3). split; [exact Z1|]. split; [|exact Z3].
  intros K1 K2. specialize (Hz K2). rewrite Forall_forall in Hz. elim (Hz z Iz K1).
Qed.
Lemma LI_reset : q = false \/ lev = 0 -> pres RI reset_for_hello_retry.
Proof.
  intros Hc. apply pres_modify. intros s H.
  assert (Hn : q = false \/ g_hs_send s = None).
  { destruct Hc as [Hc|Hc]; [auto|]. destruct q eqn:Hq; [right|auto]. destruct H as (rss & L). apply L; auto. }
  assert (K : I (set_g_hs_seq 0 (set_g_hs_send (g_hs_send s) s))).
  { apply LI_hs_fields; auto. intros K1 K2. destruct H as (rss & L). apply L; auto. }
  replace (set_g_hs_seq 0 (set_g_hs_send (g_hs_send s) s)) with (set_g_hs_seq 0 s) in K by (destruct s; reflexivity).
  nhyp K.
Qed.
Lemma LI_abort : lev < 3 -> pres RI eng13_abort.
Proof.
  intros Hl. apply pres_modify. intros s (rss & L).
  apply (LI_frame (set_g_saved [] (set_g_tx [] s))); try reflexivity. apply LI_saved; [constructor|].
  destruct L as [L1 L2 L3 L4 L5 L6 L7 L8]. destruct (L5 Hl) as (Q1 & Q2 & Q3).
  assert (Hsplit : rss = firstn (length (datagrams os)) rss ++ skipn (length (datagrams os)) rss) by (symmetry; apply firstn_skipn).
  set (n := length (datagrams os)) in *.
  assert (Hw : datagrams os = map enc (firstn n rss)).
  { rewrite <- firstn_map, <- L1. rewrite firstn_app. subst n. rewrite Nat.sub_diag, firstn_all. cbn. rewrite app_nil_r. reflexivity. }
  set (r1 := firstn n rss) in *. set (r2 := skipn n rss) in *. clearbody r1 r2. subst rss.
  rewrite concat_app in *. apply Forall_app in L2. rewrite kus_app in *.
  assert (K0 : kus (concat r1) = 0) by lia.
  exists r1. constructor; cbn; auto.
  - rewrite app_nil_r. exact Hw.
  - apply L2.
  - intros K. rewrite Q1, Q2. lia.
  - intros K. destruct L8 as [L9 L10]; [lia|]. split; [apply (FOP_app_l _ _ _ L9)|]. apply Forall_app in L10. apply L10.
Qed.
End Ledger.
