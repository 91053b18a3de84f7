(** What the DTLS 1.3 send path puts on the wire: single records, fragmented handshake
    messages and retransmitted flights. *)
From Verif Require Import Prelude PreludeFacts Types Codec Codec12 Codec13 Record12 Record13 Monad MonadFacts Timer
  Env Config Aead Prf Window SeqRecon Engine12 Queue12Proofs Client12 Engine13 Client13 Server13 Frame13 History12 History12Facts
  History13 Lift13 Frag12Proofs Send12Proofs Send13Proofs Trace13 Trace13Proofs Out13 Nonce13 Timer12Proofs Wait12Proofs Timer13Proofs Wait13Proofs.

(** The next number and the key of epoch [ep]. *)
Definition num13 (s : Eng13) (ep : N) : N := if ep =? 0 then g_seq0 s else ctx_seq s (ctx13 s ep).
Definition key13 (s : Eng13) (ep : N) : option Keys13 := if ep =? 0 then None else ctx_keys s (ctx13 s ep).
(** Where records come from, apart from the counters. *)
Definition keys_same (a b : Eng13) : Prop :=
  g_hs_send b = g_hs_send a /\ g_prev b = g_prev a /\ g_prev_epoch b = g_prev_epoch a /\ g_app_send b = g_app_send a /\
  g_suite b = g_suite a /\ g_cfg b = g_cfg a /\ g_epoch b = g_epoch a.
Definition nums_up (a b : Eng13) : Prop := forall ep, num13 a ep <= num13 b ep.
Lemma keys_same_refl a : keys_same a a. Proof. repeat split. Qed.
Lemma keys_same_trans a b c : keys_same a b -> keys_same b c -> keys_same a c.
Proof. intros (?&?&?&?&?&?&?) (?&?&?&?&?&?&?). repeat split; congruence. Qed.
Lemma ctx13_same a b ep : keys_same a b -> ctx13 b ep = ctx13 a ep.
Proof. intros (_ & H2 & H3 & _). unfold ctx13. rewrite H2, H3. reflexivity. Qed.
Lemma key13_same a b ep : keys_same a b -> key13 b ep = key13 a ep.
Proof.
  intros H. unfold key13. rewrite (ctx13_same a b ep H). destruct H as (H1 & H2 & _ & H4 & _). unfold ctx_keys. rewrite H1, H2, H4. reflexivity.
Qed.

Definition rec13 (E : Env) (s : Eng13) (ct ep : N) (f : bytes) (z : Sent13) : Prop :=
  z_type z = ct /\ z_epoch z = ep /\ z_frag z = f /\ z_key z = key13 s ep /\ num13 s ep <= z_seq z /\ sent_ok E z.
Lemma rec13_later E a b ct ep f z : keys_same a b -> nums_up a b -> rec13 E b ct ep f z -> rec13 E a ct ep f z.
Proof.
  intros K U (H1 & H2 & H3 & H4 & H5 & H6). rewrite (key13_same a b ep K) in H4. specialize (U ep).
  repeat (split; [assumption|]). split; [lia|exact H6].
Qed.

Lemma concat_emit app rec s : (app = true -> g_tx s <> []) -> concat (g_tx (emit13 app rec s)) = concat (g_tx s) ++ rec.
Proof.
  intros H. destruct app; cbn.
  - apply concat_append_last, H. reflexivity.
  - rewrite concat_app. cbn. rewrite app_nil_r. reflexivity.
Qed.

Definition creates E (ct ep : N) (sv : bool) (f : bytes) : M Eng13 unit :=
  if ep =? 0 then create_plain13 ct sv f else create_cipher13 E ct ep sv f.
Lemma create_sent E ct ep sv f s :
  wp (creates E ct ep sv f) (fun r s' =>
    keys_same s s' /\ nums_up s s' /\ g_transcript s' = g_transcript s /\ g_next_hs s' = g_next_hs s /\
    match r with
    | Ok _ => exists z, rec13 E s ct ep f z /\ z_seq z = num13 s ep /\ concat (g_tx s') = concat (g_tx s) ++ z_wire z /\
        g_saved s' = g_saved s ++ (if sv then [mkEntry13 ct ep (z_seq z) f false] else [])
    | Err x => (x = ETxFull \/ x = ECrypto) /\ g_tx s' = g_tx s /\ (sv = false -> g_saved s' = g_saved s)
    | Panic _ => g_tx s' = g_tx s /\ (sv = false -> g_saved s' = g_saved s)
    end) s.
Proof.
  unfold creates. destruct (ep =? 0) eqn:He.
  - apply N.eqb_eq in He. subst ep. eapply wp_mono; [apply create_plain_spec|]. intros r s' H. cbv zeta in H.
    destruct r as [u|x|n].
    + destruct H as (H1 & _ & _ & ->).
      set (rec := s_plain13 ct 0 (g_seq0 s) f). set (en := mkEntry13 ct 0 (g_seq0 s) f false). set (a := can_append13 s (13 + len f)).
      assert (F : forall s1, keys_same s s1 -> keys_same s (emit13 a rec s1)) by (intros s1 H; unfold emit13; destruct a; exact H).
      split; [apply F; destruct sv; repeat split|].
      split. { intro ep. unfold num13, emit13. destruct (ep =? 0); [destruct a, sv; cbn; lia|destruct a, sv; cbn; apply N.le_refl]. }
      split; [unfold emit13; destruct a, sv; reflexivity|]. split; [unfold emit13; destruct a, sv; reflexivity|].
      exists (mkSent13 0 (g_seq0 s) None ct f rec). split; [|split; [reflexivity|split]].
      * repeat split; try assumption; reflexivity.
      * rewrite concat_emit; [destruct sv; reflexivity|]. intros Ha. destruct sv; cbn; eapply can_append13_nonnil; exact Ha.
      * unfold emit13. destruct a, sv; cbn; rewrite ?app_nil_r; reflexivity.
    + destruct H as [H1 ->]. destruct sv; (split; [repeat split|]); (split; [intro; apply N.le_refl|]); repeat split; auto; discriminate.
    + destruct H as (_ & _ & -> & _). split; [repeat split|]. split; [intro; apply N.le_refl|]. auto 7.
  - eapply wp_mono; [apply create_cipher_spec|]. intros r s' H. cbv zeta in H. apply N.eqb_neq in He.
    destruct r as [u|x|n].
    + destruct H as (cs & i & k & body & rec & W1 & W2 & W3 & W4 & W5 & _ & _ & ->).
      set (c := ctx13 s ep) in *. set (en := mkEntry13 ct ep (ctx_seq s c) f false). set (a := can_append13 s (5 + len body)).
      assert (F : forall s1, keys_same s s1 -> keys_same s (emit13 a rec s1)) by (intros s1 H; unfold emit13; destruct a; exact H).
      assert (B : keys_same s (bump_seq c ep (keep13 sv en s))).
      { unfold bump_seq. destruct c; cbv zeta; [destruct sv; repeat split..|].
        destruct (3 <=? ep); [destruct (_ <=? _)|]; destruct sv; repeat split. }
      assert (B2 : g_tx (bump_seq c ep (keep13 sv en s)) = g_tx s /\ g_transcript (bump_seq c ep (keep13 sv en s)) = g_transcript s /\
        g_next_hs (bump_seq c ep (keep13 sv en s)) = g_next_hs s /\
        g_saved (bump_seq c ep (keep13 sv en s)) = g_saved s ++ (if sv then [en] else [])).
      { unfold bump_seq. destruct c; cbv zeta; [destruct sv; cbn; rewrite ?app_nil_r; repeat split..|].
        destruct (3 <=? ep); [destruct (_ <=? _)|]; destruct sv; cbn; rewrite ?app_nil_r; repeat split. }
      destruct B2 as (B2 & B3 & B4 & B5).
      split; [apply F, B|].
      split. { intro ep'. assert (Q : forall s1, num13 (emit13 a rec s1) ep' = num13 s1 ep') by (intro; unfold emit13; destruct a; reflexivity).
        rewrite Q. unfold num13. destruct (ep' =? 0).
        - unfold bump_seq. destruct c; cbv zeta; [destruct sv; apply N.le_refl..|].
          destruct (3 <=? ep); [destruct (_ <=? _)|]; destruct sv; apply N.le_refl.
        - rewrite (ctx13_same s _ ep' B). unfold bump_seq. destruct c, (ctx13 s ep'); cbv zeta; cbn [ctx_seq];
            try (destruct sv; cbn; lia); destruct (3 <=? ep); try (destruct (_ <=? _)); destruct sv; cbn; lia. }
      split; [unfold emit13; destruct a; cbn; exact B3|]. split; [unfold emit13; destruct a; cbn; exact B4|].
      exists (mkSent13 ep (ctx_seq s c) (Some k) ct f rec). 
      assert (N : num13 s ep = ctx_seq s c) by (unfold num13; replace (ep =? 0) with false by lia; reflexivity).
      split; [|split; [symmetry; exact N|split]].
      * unfold rec13. cbn [z_type z_epoch z_frag z_key z_seq]. repeat (split; [reflexivity|]).
        split; [unfold key13; replace (ep =? 0) with false by lia; symmetry; exact W3|]. split; [rewrite N; apply N.le_refl|].
        split; [exact W5|]. exists cs, i, body. split; [exact W2|exact W4].
      * rewrite concat_emit; rewrite B2; [reflexivity|]. apply can_append13_nonnil.
      * unfold emit13. destruct a; cbn; exact B5.
    + destruct H as [H1 ->]. destruct sv; (split; [repeat split|]); (split; [intro; apply N.le_refl|]); repeat split; auto; discriminate.
    + destruct H as [-> | ->]; [|destruct sv]; (split; [repeat split|]); (split; [intro; apply N.le_refl|]); repeat split; auto; discriminate.
Qed.

Lemma Forall2_impl {A B} (P Q : A -> B -> Prop) l l' : (forall a b, P a b -> Q a b) -> Forall2 P l l' -> Forall2 Q l l'.
Proof. intros H. induction 1; constructor; auto. Qed.

(** ** Fragmentation *)

Lemma len_enc_app a b : enc (a ++ b) = enc a ++ enc b.
Proof. unfold enc. apply flat_map_app. Qed.

(** The entries saved for the records [zs]. *)
Definition entry_of (z : Sent13) : Entry13 := mkEntry13 (z_type z) (z_epoch z) (z_seq z) (z_frag z) false.
Definition fixed13 (ep tag : N) : N := (if ep =? 0 then 13 else 5) + 12 + (if ep =? 0 then 0 else tag + 1).

Lemma frag_loop13_spec E mt total seq ep prot tag : prot = (if ep =? 0 then 0 else tag + 1) ->
  forall fuel off rest s, fixed13 ep tag < c_mtu (g_cfg s) -> (length rest <= fuel)%nat ->
  wp (frag_loop13 E fuel mt total seq ep prot off rest) (fun r s' =>
    keys_same s s' /\ nums_up s s' /\ g_transcript s' = g_transcript s /\ g_next_hs s' = g_next_hs s /\
    match r with
    | Ok _ => exists cs zs, concat cs = rest /\ Forall (fun c => c <> []) cs /\
        Forall (fun c => fixed13 ep tag + len c <= c_mtu (g_cfg s)) cs /\
        Forall2 (fun f z => rec13 E s CT_HS ep f z) (pieces mt total seq off cs) zs /\
        concat (g_tx s') = concat (g_tx s) ++ enc zs /\ g_saved s' = g_saved s ++ map entry_of zs
    | Err x => x = ETxFull \/ x = ECrypto
    | Panic n => True
    end) s.
Proof.
  intros Hp. induction fuel as [|fuel IH]; intros off rest s Hm Hf.
  - destruct rest; [|cbn in Hf; lia]. apply wp_ret. split; [apply keys_same_refl|]. split; [intro; apply N.le_refl|]. split; [reflexivity|]. split; [reflexivity|].
    exists [], []. cbn. rewrite !app_nil_r. repeat split; constructor.
  - cbn [frag_loop13]. destruct rest as [|b rest0].
    { apply wp_ret. split; [apply keys_same_refl|]. split; [intro; apply N.le_refl|]. split; [reflexivity|]. split; [reflexivity|].
      exists [], []. cbn. rewrite !app_nil_r. repeat split; constructor. }
    set (rest := b :: rest0) in *. apply wp_bind, wp_get. cbv zeta.
    set (used := match rev (g_tx s) with [] => 0 | b1 :: _ => len b1 end).
    match goal with |- context [N.min (len rest) ?a] => set (avail := a) end. set (chunk := N.min (len rest) avail).
    assert (Ha : 0 < avail /\ fixed13 ep tag + avail <= c_mtu (g_cfg s)).
    { unfold avail, fixed13 in *. clear - Hm Hp. subst prot. destruct (ep =? 0).
      - destruct (13 + 12 + 0 <? c_mtu (g_cfg s) - used) eqn:?; lia.
      - destruct (5 + 12 + (tag + 1) <? c_mtu (g_cfg s) - used) eqn:?; lia. }
    destruct Ha as [Ha1 Ha2]. clearbody avail.
    assert (Lr : 0 < len rest) by (unfold rest; rewrite len_cons; lia).
    set (piece := firstn (N.to_nat chunk) rest).
    assert (Lp : len piece = chunk) by (unfold piece, len in *; rewrite firstn_length; lia).
    apply wp_bind. eapply wp_mono; [apply (create_sent E CT_HS ep true)|].
    intros r s1 (K1 & U1 & T1 & X1 & H). destruct r as [u|x|n]; [|split; [exact K1|]; split; [exact U1|]; split; [exact T1|]; split; [exact X1|]; first [apply H|exact Logic.I]..].
    destruct H as (z & Z1 & Z2 & Z3 & Z4).
    assert (Cf : g_cfg s1 = g_cfg s) by apply K1.
    eapply wp_mono; [apply IH|].
    { rewrite Cf. exact Hm. }
    { rewrite skipn_length. unfold len in *. lia. }
    intros r s2 (K2 & U2 & T2 & X2 & H).
    split; [exact (keys_same_trans _ _ _ K1 K2)|]. split; [intro e; etransitivity; [apply U1|apply U2]|].
    split; [congruence|]. split; [congruence|].
    destruct r as [u2|x|n]; [|exact H..]. destruct H as (cs & zs & H1 & H2 & H3 & H4 & H5 & H6).
    exists (piece :: cs), (z :: zs). cbn [concat pieces]. rewrite Lp.
    split; [rewrite H1; apply firstn_skipn|].
    split; [constructor; [intros X; rewrite X in Lp; change (len (@nil N)) with 0 in Lp; lia|exact H2]|].
    split; [constructor; [lia|rewrite <- Cf; exact H3]|].
    split; [constructor; [exact Z1|]|].
    + eapply Forall2_impl; [|exact H4]. intros a z0. apply rec13_later; assumption.
    + split.
      * rewrite H5, Z3, <- app_assoc. reflexivity.
      * rewrite H6, Z4, <- app_assoc. cbn [map app]. f_equal. f_equal. unfold entry_of.
        destruct Z1 as (-> & -> & -> & _). reflexivity.
Qed.

(** The bytes protection adds, as the loop computes them. *)
Definition tag_of (E : Env) (s : Eng13) : N :=
  match g_suite s with Some cs => match find13 E cs with Some i => N.of_nat (s13_tag i) | None => 0 end | None => 0 end.

Lemma create_handshake13_spec E mt body s :
  fixed13 (mt13_epoch mt) (tag_of E s) < c_mtu (g_cfg s) ->
  wp (create_handshake13 E mt (ret body)) (fun r s' =>
    keys_same s s' /\ nums_up s s' /\
    g_transcript s' = g_transcript s ++ transcript13 mt (u32 (len body)) body /\ g_next_hs s' = u16 (g_next_hs s + 1) /\
    match r with
    | Ok _ => exists cs zs, message_pieces body cs /\
        Forall (fun c => fixed13 (mt13_epoch mt) (tag_of E s) + len c <= c_mtu (g_cfg s)) cs /\
        Forall2 (fun f z => rec13 E s CT_HS (mt13_epoch mt) f z) (pieces mt (u32 (len body)) (g_next_hs s) 0 cs) zs /\
        concat (g_tx s') = concat (g_tx s) ++ enc zs /\ g_saved s' = g_saved s ++ map entry_of zs
    | Err x => x = ETxFull \/ x = ECrypto
    | Panic n => True
    end) s.
Proof.
  intros Hm. unfold create_handshake13. apply wp_bind, wp_ret, wp_bind, wp_get. apply wp_bind, wp_modify, wp_bind, wp_modify. cbv zeta.
  set (total := u32 (len body)). set (sq := g_next_hs s). set (ep := mt13_epoch mt) in *.
  match goal with |- wp _ _ ?x => set (s1 := x) end.
  assert (K : keys_same s s1) by (repeat split). assert (U : nums_up s s1) by (intro; apply N.le_refl).
  assert (A : g_transcript s1 = g_transcript s ++ transcript13 mt total body /\ g_next_hs s1 = u16 (sq + 1) /\ g_tx s1 = g_tx s /\
    g_saved s1 = g_saved s /\ g_suite s1 = g_suite s /\ g_cfg s1 = g_cfg s) by (repeat split).
  destruct A as (A1 & A2 & A3 & A4 & A5 & A6). clearbody s1.
  apply wp_bind. apply wp_mono with (P := fun r s2 => s2 = s1 /\ match r with
    | Ok prot => prot = if ep =? 0 then 0 else tag_of E s + 1 | Panic _ => True | Err _ => False end).
  { destruct (ep =? 0); [apply wp_ret; auto|]. apply wp_bind, wp_suite_provider. unfold tag_of. rewrite A5.
    destruct (g_suite s) as [cs|]; [|auto]. destruct (find13 E cs) as [i|]; [|auto]. apply wp_ret. auto. }
  intros r s2 [-> Hr]. destruct r as [prot|x|n]; [|contradiction|auto].
  destruct body as [|b body0] eqn:Hb.
  - eapply wp_mono; [apply (create_sent E CT_HS ep true)|]. intros r s2 (K1 & U1 & T1 & X1 & H).
    split; [exact (keys_same_trans _ _ _ K K1)|]. split; [intro e; etransitivity; [apply U|apply U1]|].
    split; [congruence|]. split; [congruence|]. destruct r as [u|x|n]; [|apply H|exact Logic.I].
    destruct H as (z & Z1 & Z2 & Z3 & Z4). exists [[]], [z]. split; [split; reflexivity|].
    split; [constructor; [change (len (@nil N)) with 0; lia|constructor]|]. cbn [pieces].
    split; [constructor; [rewrite app_nil_r; eapply rec13_later; eassumption|constructor]|].
    rewrite Z3, Z4, A3, A4. cbn [enc flat_map map]. unfold enc. cbn [flat_map]. rewrite app_nil_r. split; [reflexivity|].
    unfold entry_of. destruct Z1 as (-> & -> & -> & _). reflexivity.
  - rewrite <- Hb in *. eapply wp_mono; [apply (frag_loop13_spec E mt total sq ep prot (tag_of E s) Hr)|].
    { rewrite A6. exact Hm. }
    { lia. }
    intros r s2 (K1 & U1 & T1 & X1 & H).
    split; [exact (keys_same_trans _ _ _ K K1)|]. split; [intro e; etransitivity; [apply U|apply U1]|].
    split; [congruence|]. split; [congruence|]. destruct r as [u|x|n]; [|exact H..].
    destruct H as (cs & zs & H1 & H2 & H3 & H4 & H5 & H6). exists cs, zs. rewrite <- A6, <- A3, <- A4.
    split; [split; [exact H1|rewrite Hb; exact H2]|]. split; [exact H3|]. split; [|split; assumption].
    eapply Forall2_impl; [|exact H4]. intros a z0. apply rec13_later; assumption.
Qed.

(** ** Retransmission *)

(** [renumbered done zs es]: [es] is [done] where each entry not acknowledged has the
    number of its record in [zs]. *)
Fixpoint renumbered (d : list Entry13) (zs : list Sent13) (es : list Entry13) : Prop :=
  match d with
  | [] => zs = [] /\ es = []
  | e :: d =>
    if en13_acked e then exists es', es = e :: es' /\ renumbered d zs es'
    else exists z zs' es', zs = z :: zs' /\ renumbered d zs' es' /\
           es = mkEntry13 (en13_ctype e) (en13_epoch e) (z_seq z) (en13_frag e) false :: es'
  end.
Definition again (E : Env) (s : Eng13) (e : Entry13) (z : Sent13) : Prop := rec13 E s (en13_ctype e) (en13_epoch e) (en13_frag e) z.

Lemma resend_loop13_spec E : forall es s,
  wp (resend_loop13 E es) (fun r s' =>
    keys_same s s' /\ nums_up s s' /\ g_saved s' = g_saved s /\
    exists d rest zs, es = d ++ rest /\ Forall2 (again E s) (filter (fun e => negb (en13_acked e)) d) zs /\
      concat (g_tx s') = concat (g_tx s) ++ enc zs /\
      match r with Ok es' => rest = [] /\ renumbered d zs es' | _ => True end) s.
Proof.
  induction es as [|e es IH]; intro s.
  - apply wp_ret. split; [apply keys_same_refl|]. split; [intro; apply N.le_refl|]. split; [reflexivity|].
    exists [], [], []. cbn. rewrite app_nil_r. repeat split. constructor.
  - cbn [resend_loop13]. destruct (en13_acked e) eqn:Ha.
    + apply wp_bind. eapply wp_mono; [apply IH|]. intros r s1 (K & U & S & d & rest & zs & H1 & H2 & H3 & H4).
      assert (G : forall (r : res (list Entry13)), match r with Ok es' => rest = [] /\ renumbered (e :: d) zs es' | _ => True end ->
        keys_same s s1 /\ nums_up s s1 /\ g_saved s1 = g_saved s /\
        exists d0 rest0 zs0, e :: es = d0 ++ rest0 /\ Forall2 (again E s) (filter (fun e => negb (en13_acked e)) d0) zs0 /\
          concat (g_tx s1) = concat (g_tx s) ++ enc zs0 /\
          match r with Ok es' => rest0 = [] /\ renumbered d0 zs0 es' | _ => True end).
      { intros r0 Hr. split; [exact K|]. split; [exact U|]. split; [exact S|]. exists (e :: d), rest, zs.
        split; [cbn [app]; rewrite H1; reflexivity|]. cbn [filter]. rewrite Ha. cbn [negb]. auto. }
      destruct r as [es'|x|n]; [|apply (G (Err x)), Logic.I|apply (G (Panic n)), Logic.I].
      apply wp_ret, (G (Ok (e :: es'))). destruct H4 as [H4 H5]. split; [exact H4|]. cbn [renumbered]. rewrite Ha. eauto.
    + apply wp_bind, wp_get. set (sq := if en13_epoch e =? 0 then g_seq0 s else ctx_seq s (ctx13 s (en13_epoch e))). apply wp_bind.
      eapply wp_mono; [apply (create_sent E (en13_ctype e) (en13_epoch e) false)|].
      intros r s1 (K1 & U1 & _ & _ & H).
      assert (Stop : forall (r : res (list Entry13)), g_saved s1 = g_saved s -> g_tx s1 = g_tx s -> match r with Ok _ => False | _ => True end ->
        keys_same s s1 /\ nums_up s s1 /\ g_saved s1 = g_saved s /\
        exists d0 rest0 zs0, e :: es = d0 ++ rest0 /\ Forall2 (again E s) (filter (fun e => negb (en13_acked e)) d0) zs0 /\
          concat (g_tx s1) = concat (g_tx s) ++ enc zs0 /\
          match r with Ok es' => rest0 = [] /\ renumbered d0 zs0 es' | _ => True end).
      { intros r0 Hs Ht Hr. split; [exact K1|]. split; [exact U1|]. split; [exact Hs|]. exists [], (e :: es), [].
        split; [reflexivity|]. split; [constructor|]. rewrite Ht. cbn. rewrite app_nil_r. split; [reflexivity|]. destruct r0; [contradiction|auto..]. }
      destruct r as [u|x|n].
      2:{ apply (Stop (Err x)); [apply H; reflexivity|apply H|exact Logic.I]. }
      2:{ apply (Stop (Panic n)); [apply H; reflexivity|apply H|exact Logic.I]. }
      destruct H as (z & Z1 & Z2 & Z3 & Z4). rewrite app_nil_r in Z4.
      apply wp_bind. eapply wp_mono; [apply IH|]. intros r s2 (K & U & S & d & rest & zs & H1 & H2 & H3 & H4).
      assert (Hsq : sq = z_seq z) by (symmetry; exact Z2). rewrite Hsq. clearbody sq. clear Stop.
      assert (G : forall (r : res (list Entry13)), match r with Ok es' => rest = [] /\ renumbered (e :: d) (z :: zs) es' | _ => True end ->
        keys_same s s2 /\ nums_up s s2 /\ g_saved s2 = g_saved s /\
        exists d0 rest0 zs0, e :: es = d0 ++ rest0 /\ Forall2 (again E s) (filter (fun e => negb (en13_acked e)) d0) zs0 /\
          concat (g_tx s2) = concat (g_tx s) ++ enc zs0 /\
          match r with Ok es' => rest0 = [] /\ renumbered d0 zs0 es' | _ => True end).
      { intros r0 Hr. split; [exact (keys_same_trans _ _ _ K1 K)|]. split; [intro x; etransitivity; [apply U1|apply U]|].
        split; [congruence|]. exists (e :: d), rest, (z :: zs). split; [cbn [app]; rewrite H1; reflexivity|].
        cbn [filter]. rewrite Ha. cbn [negb]. split; [constructor; [exact Z1|]|].
        - eapply Forall2_impl; [|exact H2]. intros a b. apply rec13_later; assumption.
        - split; [rewrite H3, Z3, <- app_assoc; reflexivity|exact Hr]. }
      destruct r as [es'|x|n]; [|apply (G (Err x)), Logic.I|apply (G (Panic n)), Logic.I].
      apply wp_ret, (G (Ok _)). destruct H4 as [H4 H5]. split; [exact H4|]. cbn [renumbered]. rewrite Ha. eauto 7.
Qed.

(** The retransmission step of a [handle_timeout] call of a waiting endpoint. *)
Lemma ack_stage_spec E now s :
  wp (ack_stage E now) (fun r s' => exists acks, concat (g_tx s') = concat (g_tx s) ++ enc acks /\ g_saved s' = g_saved s /\
    (acks = [] \/ exists z f, acks = [z] /\ rec13 E s CT_ACK 2 f z)) s.
Proof.
  unfold ack_stage. apply wp_bind, wp_modify. destruct (maybe_ack_set now s) as [d ->]. set (s1 := set_g_ackdl d s).
  unfold maybe_flush_ack. apply wp_bind, wp_get.
  assert (G : forall (x : Eng13), g_tx x = g_tx s -> g_saved x = g_saved s -> exists acks, concat (g_tx x) = concat (g_tx s) ++ enc acks /\ g_saved x = g_saved s /\
    (acks = [] \/ exists z f, acks = [z] /\ rec13 E s CT_ACK 2 f z)).
  { intros x -> ->. exists []. cbn. rewrite app_nil_r. auto. }
  destruct (g_ackdl s1) as [d0|]; [|apply wp_ret, G; reflexivity]. destruct (now <? d0); [apply wp_ret, G; reflexivity|].
  apply wp_bind, wp_modify. set (s2 := set_g_ackdl None s1). destruct (epoch2_records (g_rx s1)); [apply wp_ret, G; reflexivity|].
  destruct (negb _); [apply wp_ret, G; reflexivity|].
  eapply wp_mono; [apply (create_sent E CT_ACK 2 false)|]. intros r x (K & U & _ & _ & H). destruct r as [u|y|n].
  - destruct H as (z & Z1 & Z2 & Z3 & Z4). exists [z]. split; [rewrite Z3; unfold enc; cbn [flat_map]; rewrite app_nil_r; reflexivity|].
    rewrite app_nil_r in Z4. split; [rewrite Z4; reflexivity|]. right. exists z. eexists. split; [reflexivity|exact Z1].
  - apply G; [apply H|apply H; reflexivity].
  - apply G; [apply H|apply H; reflexivity].
Qed.

Lemma arm13_keys now e : keys_same e (arm13 now e) /\ nums_up e (arm13 now e).
Proof. unfold arm13. destruct (timeout_is_unarmed _), (timeout_is_unarmed _); (split; [repeat split|intro; apply N.le_refl]). Qed.

Lemma flight_resend13_spec E s :
  wp (flight_resend13 E) (fun r s' =>
    keys_same s s' /\ nums_up s s' /\
    exists d rest zs, g_saved s = d ++ rest /\ Forall2 (again E s) (filter (fun e => negb (en13_acked e)) d) zs /\
      concat (g_tx s') = concat (g_tx s) ++ enc zs /\
      match r with Ok _ => rest = [] /\ renumbered d zs (g_saved s') | _ => g_saved s' = [] end) s.
Proof.
  unfold flight_resend13. apply wp_bind, wp_get, wp_bind, wp_modify. set (s1 := set_g_sealed true (set_g_saved [] s)).
  apply wp_bind. eapply wp_mono; [apply (resend_loop13_spec E (g_saved s) s1)|].
  intros r s2 (K & U & S & d & rest & zs & H1 & H2 & H3 & H4).
  assert (K1 : keys_same s s1) by (repeat split). assert (U1 : nums_up s s1) by (intro; apply N.le_refl).
  assert (G : forall l (b : bool), g_tx l = g_tx s2 -> keys_same s2 l -> nums_up s2 l ->
    keys_same s l /\ nums_up s l /\ Forall2 (again E s) (filter (fun e => negb (en13_acked e)) d) zs /\
    concat (g_tx l) = concat (g_tx s) ++ enc zs).
  { intros l b Hl Hk Hu. split; [exact (keys_same_trans _ _ _ K1 (keys_same_trans _ _ _ K Hk))|].
    split; [intro x; etransitivity; [apply U1|]; etransitivity; [apply U|apply Hu]|].
    split; [eapply Forall2_impl; [|exact H2]; intros a z; apply rec13_later; assumption|]. rewrite Hl. exact H3. }
  destruct r as [es'|x|n].
  - apply wp_modify. destruct (G (set_g_saved es' s2) true) as (G1 & G2 & G3 & G4); try reflexivity; [repeat split|intro; apply N.le_refl|].
    split; [exact G1|]. split; [exact G2|]. exists d, rest, zs. repeat (split; [assumption|]). exact H4.
  - destruct (G s2 true) as (G1 & G2 & G3 & G4); try reflexivity; [repeat split|intro; apply N.le_refl|].
    split; [exact G1|]. split; [exact G2|]. exists d, rest, zs. repeat (split; [assumption|]). exact S.
  - destruct (G s2 true) as (G1 & G2 & G3 & G4); try reflexivity; [repeat split|intro; apply N.le_refl|].
    split; [exact G1|]. split; [exact G2|]. exists d, rest, zs. repeat (split; [assumption|]). exact S.
Qed.

Lemma waiting_resend13 E cfg cert key h s now f r s' :
  reach13 E cfg cert key h s -> waiting13 E s -> 0 < c_hs_timeout cfg ->
  match g_connect (end13_eng s) with Armed c => now < c | _ => True end ->
  g_flight (end13_eng s) = Armed f -> f <= now -> resent13 s < c_retries cfg ->
  end13_call E (Tick now) s = (r, s') ->
  exists d rest zs acks,
    g_saved (end13_eng s) = d ++ rest /\
    Forall2 (again E (end13_eng s)) (filter (fun e => negb (en13_acked e)) d) zs /\
    concat (g_tx (end13_eng s')) = concat (g_tx (end13_eng s)) ++ enc (zs ++ acks) /\
    (acks = [] \/ exists z c, acks = [z] /\ rec13 E (end13_eng s) CT_ACK 2 c z) /\
    ((rest = [] /\ renumbered d zs (g_saved (end13_eng s'))) \/ (g_saved (end13_eng s') = [] /\ r <> Ok None)).
Proof.
  intros HR HW HT HC Hf L Hk H. destruct (reach_bo13 _ _ _ _ _ _ HR) as [Hcfg B].
  destruct (waiting_tick_unfold E now s HW) as (o & Hu & _). rewrite Hu in H. clear Hu.
  destruct (eng13_handle_timeout E now (set_g_orc o (end13_eng s))) as [rt e] eqn:He. injection H as Hr Hs.
  assert (Es : end13_eng s' = e) by (rewrite <- Hs; apply eng_set13). clear Hs. rewrite timeout13_unfold in He.
  set (e0 := set_g_orc o (end13_eng s)) in *.
  assert (Kc : g_connect (arm13 now e0) = armed13 now (end13_eng s)) by (rewrite (proj2 (arm13_connect now e0)); reflexivity).
  assert (D1 : due (g_connect (arm13 now e0)) now = false).
  { rewrite Kc. unfold armed13, due. destruct (g_connect (end13_eng s)); [reflexivity|rewrite Hcfg; lia|lia]. }
  rewrite D1, rest_unfold in He. clear Kc D1.
  assert (K0 : keys_same (end13_eng s) e0 /\ nums_up (end13_eng s) e0) by (split; [repeat split|intro; apply N.le_refl]).
  destruct (arm13_keys now e0) as [K1 U1].
  destruct (arm13_rest now e0) as ((A1 & A2) & A3 & A4 & A5).
  change (g_cfg e0) with (g_cfg (end13_eng s)) in A1. change (g_bo e0) with (g_bo (end13_eng s)) in A2, A5.
  change (g_saved e0) with (g_saved (end13_eng s)) in A3. change (g_tx e0) with (g_tx (end13_eng s)) in A4.
  change (g_flight e0) with (g_flight (end13_eng s)) in A5. rewrite A5, Hf in He.
  set (e1 := arm13 now e0) in *. clearbody e1.
  replace (f <=? now) with true in He by lia. unfold backoff_can_retry in He. rewrite A2 in He.
  unfold resent13 in Hk. rewrite Hcfg in Hk. pose proof B as (B1 & B2 & B3 & B4 & B5). rewrite Hcfg in B3.
  replace (0 <? bo_left (g_bo (end13_eng s))) with true in He by lia.
  set (x := rearm13 E now e1) in *.
  assert (K2 : keys_same e1 x /\ nums_up e1 x) by (split; [repeat split|intro; apply N.le_refl]).
  assert (Hxs : g_saved x = g_saved (end13_eng s)) by (unfold x, rearm13; cbn; congruence).
  assert (Hxt : g_tx x = g_tx (end13_eng s)) by (unfold x, rearm13; cbn; congruence).
  assert (KX : keys_same (end13_eng s) x) by (destruct K0, K2; eauto using keys_same_trans).
  assert (UX : nums_up (end13_eng s) x).
  { intro ep. destruct K0 as [_ U0], K2 as [_ U2]. specialize (U0 ep). specialize (U1 ep). specialize (U2 ep). lia. }
  clearbody x. clear K0 K1 U1 K2 e0. rewrite Es, <- Hxs, <- Hxt. unfold bind in He.
  pose proof (flight_resend13_spec E x) as F. unfold wp in F. destruct (flight_resend13 E x) as [rx e2].
  cbn [fst snd] in F. destruct F as (FK & FU & d & rest & zs & F1 & F2 & F3 & F4).
  assert (F2' : Forall2 (again E (end13_eng s)) (filter (fun e => negb (en13_acked e)) d) zs).
  { eapply Forall2_impl; [|exact F2]. intros a z. apply rec13_later; assumption. }
  destruct rx as [[]|y|n].
  - pose proof (ack_stage_spec E now e2) as W. unfold wp in W. rewrite He in W. cbn [fst snd] in *. destruct W as (acks & W1 & W2 & W3).
    exists d, rest, zs, acks. split; [exact F1|]. split; [exact F2'|]. rewrite len_enc_app. split; [rewrite W1, F3, app_assoc; reflexivity|].
    split; [|left; rewrite W2; exact F4]. destruct W3 as [W3|(z & c & -> & W3)]; [left; exact W3|right; exists z, c].
    split; [reflexivity|]. eapply rec13_later; [| |exact W3].
    + exact (keys_same_trans _ _ _ KX FK).
    + intro ep. specialize (UX ep). specialize (FU ep). lia.
  - injection He as <- <-. exists d, rest, zs, []. rewrite app_nil_r. repeat (split; [assumption|]). split; [auto|]. right.
    split; [exact F4|]. subst r. discriminate.
  - injection He as <- <-. exists d, rest, zs, []. rewrite app_nil_r. repeat (split; [assumption|]). split; [auto|]. right.
    split; [exact F4|]. subst r. discriminate.
Qed.
