(** The sizes of the datagrams a DTLS 1.3 endpoint builds. *)
From Verif Require Import Prelude PreludeFacts Types Codec Codec12 Codec13 Record12 Record13 Monad MonadFacts Timer
  Env Config Aead Prf Window SeqRecon Engine12 Queue12Proofs Client12 Engine13 Client13 Server13 Frame13 History12 History12Facts
  History13 Lift13 Send13Proofs Trace13 Trace13Proofs Out13 Nonce13.

(** Protection adds [T] bytes, whatever the suite. *)
Definition tags13 (E : Env) (T : N) : Prop :=
  (forall cs i, find13 E cs = Some i -> N.of_nat (s13_tag i) = T) /\
  (forall c k n a p b, e_seal E c k n a p = Some b -> len b <= len p + T).
(** The MTU leaves room for one byte of a handshake message. *)
Definition room13 (mtu T : N) : Prop := 25 < mtu /\ 18 + T < mtu.

(** A protected record that carries epoch number 0: the 16-bit epoch has wrapped. *)
Definition wrapped (z : Sent13) : Prop := z_epoch z = 0 /\ z_key z <> None.
Definition fits13 (E : Env) (mtu : N) (d : bytes) : Prop :=
  exists zs, d = enc zs /\ Forall (sent_ok E) zs /\
    (len d <= mtu \/ (exists z, zs = [z] /\ z_type z <> CT_HS) \/ Exists wrapped zs).
Definition small13 (mtu T : N) (e : Entry13) : Prop :=
  en13_ctype e = CT_HS -> (if en13_epoch e =? 0 then 13 else 6 + T) + len (en13_frag e) <= mtu.
Definition sizes13 (E : Env) (T : N) (s : Eng13) : Prop :=
  Forall (fits13 E (c_mtu (g_cfg s))) (g_tx s) /\ Forall (small13 (c_mtu (g_cfg s)) T) (g_saved s).
Definition Rz (E : Env) (T : N) (a b : Eng13) : Prop :=
  g_cfg a = g_cfg b /\ (room13 (c_mtu (g_cfg a)) T -> sizes13 E T a -> sizes13 E T b).

Lemma Rz_po E T : preorder (Rz E T).
Proof. unfold Rz. split; [auto|]. intros a b c [H1 H2] [H3 H4]. split; [congruence|]. rewrite H1 in *. auto. Qed.

Lemma len_xor_seq m w : len (xor_seq 2 m w) = len w.
Proof.
  destruct w as [|a [|b [|c w]]]; try reflexivity. 
Qed.
Lemma len_plain13 ct ep sq f : len (s_plain13 ct ep sq f) = 13 + len f.
Proof. unfold s_plain13. rewrite !len_app, !len_be. lia. Qed.
Lemma len_rec13 ct ep sq f : ep <> 0 -> len (s_rec13 ct ep sq f) = 5 + len f.
Proof.
  intros H. unfold s_rec13. replace (ep =? 0) with false by lia. unfold s_cipher13, s_uhdr13.
  rewrite len_app. rewrite len_cons, !len_app, !len_be. lia.
Qed.

Lemma fits_append E mtu b w z : fits13 E mtu b -> sent_ok E z -> w = z_wire z ->
  len b + len w <= mtu \/ wrapped z -> fits13 E mtu (b ++ w).
Proof.
  intros (zs & -> & Hz & _) Hk -> H. exists (zs ++ [z]). split; [unfold enc; rewrite flat_map_app; cbn [flat_map]; rewrite app_nil_r; reflexivity|].
  split; [apply Forall_app; auto|]. destruct H as [H|H].
  - left. rewrite len_app. exact H.
  - right. right. apply Exists_app. right. constructor. exact H.
Qed.
Lemma fits_new E mtu w z : sent_ok E z -> w = z_wire z ->
  len w <= mtu \/ z_type z <> CT_HS \/ wrapped z -> fits13 E mtu w.
Proof.
  intros Hk -> H. exists [z]. split; [unfold enc; cbn [flat_map]; rewrite app_nil_r; reflexivity|].
  split; [auto|]. destruct H as [H|[H|H]]; [left; exact H| |].
  - right. left. exists z. auto.
  - right. right. constructor. exact H.
Qed.

Lemma sizes_emit E T s s1 z app n : sizes13 E T s1 -> g_cfg s1 = g_cfg s -> g_tx s1 = g_tx s -> g_sealed s1 = g_sealed s ->
  sent_ok E z -> app = can_append13 s n -> len (z_wire z) = n \/ wrapped z ->
  len (z_wire z) <= c_mtu (g_cfg s) \/ z_type z <> CT_HS \/ wrapped z ->
  sizes13 E T (emit13 app (z_wire z) s1).
Proof.
  intros [H1 H2] Hc Ht Hs Hk -> Hn Hw. rewrite Hc in *. unfold emit13, can_append13 in *.
  destruct (negb (g_sealed s) && _) eqn:Ha.
  - apply andb_true_iff in Ha. destruct Ha as [_ Ha]. destruct (rev (g_tx s)) as [|b q] eqn:Hr; [discriminate|].
    assert (Ht2 : g_tx s = rev q ++ [b]) by (rewrite <- (rev_involutive (g_tx s)), Hr; reflexivity).
    split; cbn; rewrite Hc; [|exact H2]. rewrite Ht, Ht2 in *. rewrite append_last_app. apply Forall_app in H1. destruct H1 as [H1 H3].
    apply Forall_app. split; [exact H1|]. inversion H3; subst. constructor; [|constructor].
    eapply fits_append; [eassumption|exact Hk|reflexivity|]. destruct Hn as [Hn|Hn]; [left; lia|right; exact Hn].
  - split; cbn; rewrite Hc; [|exact H2]. apply Forall_app. split; [exact H1|]. constructor; [|constructor].
    eapply fits_new; [exact Hk|reflexivity|exact Hw].
Qed.

Lemma sizes_keep E T sv e s : sizes13 E T s -> (sv = true -> small13 (c_mtu (g_cfg s)) T e) -> sizes13 E T (keep13 sv e s).
Proof.
  intros [H1 H2] H. destruct sv; [|split; assumption]. split; [exact H1|]. apply Forall_app. split; [exact H2|]. constructor; auto.
Qed.
Lemma keep_fields sv e s : g_cfg (keep13 sv e s) = g_cfg s /\ g_tx (keep13 sv e s) = g_tx s /\ g_sealed (keep13 sv e s) = g_sealed s.
Proof. destruct sv; auto. Qed.
Lemma bump_fields c ep s : g_cfg (bump_seq c ep s) = g_cfg s /\ g_tx (bump_seq c ep s) = g_tx s /\ g_sealed (bump_seq c ep s) = g_sealed s /\
  g_saved (bump_seq c ep s) = g_saved s.
Proof. unfold bump_seq. destruct c; cbv zeta; auto; destruct (3 <=? ep); auto; destruct (_ <=? _); auto. Qed.

Section Sizes.
Variables (E : Env) (T : N).
Hypothesis HT : tags13 E T.
Notation R := (Rz E T).
Notation PO := (Rz_po E T).

Lemma z_cipher ct ep sv f s : (room13 (c_mtu (g_cfg s)) T -> sizes13 E T s -> small13 (c_mtu (g_cfg s)) T (mkEntry13 ct ep 0 f false)) ->
  R s (snd (create_cipher13 E ct ep sv f s)).
Proof.
  intros Hf. pose proof (create_cipher_spec E ct ep sv f s) as W. unfold wp in W.
  destruct (create_cipher13 E ct ep sv f s) as [r s']. cbn [snd] in *. cbv zeta in W.
  set (en := mkEntry13 ct ep (ctx_seq s (ctx13 s ep)) f false) in *.
  assert (K : R s (keep13 sv en s)).
  { split; [symmetry; apply keep_fields|]. intros Hr H. apply sizes_keep; [exact H|]. intros _ Hc. apply (Hf Hr H Hc). }
  destruct r as [u|x|n]; [|destruct W as [_ ->]; exact K|destruct W as [-> | ->]; [apply PO|exact K]].
  destruct W as (cs & i & k & body & rec & W1 & W2 & W3 & W4 & W5 & _ & _ & ->).
  destruct K as [Kc K]. split.
  { unfold emit13. destruct (can_append13 _ _); cbn; rewrite (proj1 (bump_fields _ _ _)); exact Kc. }
  intros Hr H. specialize (K Hr H). specialize (Hf Hr H).
  set (z := mkSent13 ep (ctx_seq s (ctx13 s ep)) (Some k) ct f rec).
  assert (Hz : sent_ok E z) by (split; [exact W5|]; exists cs, i, body; split; [exact W2|exact W4]).
  destruct (bump_fields (ctx13 s ep) ep (keep13 sv en s)) as (B1 & B2 & B3 & B4).
  destruct (keep_fields sv en s) as (C1 & C2 & C3).
  destruct W4 as [S1 S2]. destruct HT as [T1 T2]. apply T2 in S1. rewrite len_app in S1. change (len [ct]) with 1 in S1.
  assert (L : len rec = 5 + len body \/ wrapped z).
  { destruct (N.eq_dec ep 0) as [-> |He]; [right; split; [reflexivity|discriminate]|].
    left. rewrite S2, len_xor_seq. apply len_rec13, He. }
  change rec with (z_wire z). eapply (sizes_emit E T s); [| | | |exact Hz|reflexivity|exact L|].
  - split; rewrite ?B1, ?B2, ?B4; apply K.
  - congruence.
  - congruence.
  - congruence.
  - destruct L as [L|L]; [|auto]. cbn [z_wire]. destruct (N.eq_dec ct CT_HS) as [Hc|Hc]; [|right; left; exact Hc].
    specialize (Hf Hc). cbn in Hf. destruct (ep =? 0) eqn:He; [|left; cbn; lia].
    right. right. split; [apply N.eqb_eq, He|discriminate].
Qed.
Lemma z_plain ct sv f s : (room13 (c_mtu (g_cfg s)) T -> sizes13 E T s -> small13 (c_mtu (g_cfg s)) T (mkEntry13 ct 0 0 f false)) ->
  R s (snd (create_plain13 ct sv f s)).
Proof.
  intros Hf. pose proof (create_plain_spec ct sv f s) as W. unfold wp in W.
  destruct (create_plain13 ct sv f s) as [r s']. cbn [snd] in *. cbv zeta in W.
  set (en := mkEntry13 ct 0 (g_seq0 s) f false) in *.
  assert (K : R s (keep13 sv en s)).
  { split; [symmetry; apply keep_fields|]. intros Hr H. apply sizes_keep; [exact H|]. intros _ Hc. apply (Hf Hr H Hc). }
  destruct r as [u|x|n]; [|destruct W as [_ ->]; exact K|destruct W as (_ & _ & -> & _); apply PO].
  destruct W as (W1 & _ & _ & ->). destruct K as [Kc K]. split.
  { unfold emit13. destruct (can_append13 _ _); exact Kc. }
  intros Hr H. specialize (K Hr H). specialize (Hf Hr H).
  set (z := mkSent13 0 (g_seq0 s) None ct f (s_plain13 ct 0 (g_seq0 s) f)).
  assert (Hz : sent_ok E z) by (split; [exact W1|split; reflexivity]).
  destruct (keep_fields sv en s) as (C1 & C2 & C3).
  change (s_plain13 ct 0 (g_seq0 s) f) with (z_wire z). eapply (sizes_emit E T s); [| | | |exact Hz|reflexivity| |].
  - exact K.
  - exact C1.
  - exact C2.
  - exact C3.
  - left. apply len_plain13.
  - destruct (N.eq_dec ct CT_HS) as [Hc|Hc]; [|right; left; exact Hc]. specialize (Hf Hc). cbn in Hf. left. cbn [z_wire z].
    rewrite len_plain13. exact Hf.
Qed.

Lemma z_cipher_other ct ep sv f : ct <> CT_HS -> pres R (create_cipher13 E ct ep sv f).
Proof. intros H s. apply z_cipher. intros _ _ K. contradiction. Qed.
Lemma z_plain_other ct sv f : ct <> CT_HS -> pres R (create_plain13 ct sv f).
Proof. intros H s. apply z_plain. intros _ _ K. contradiction. Qed.

Lemma len_hs_header mt total seq off n : len (s_hs_header mt total seq off n) = 12.
Proof. unfold s_hs_header. rewrite !len_app, !len_be. lia. Qed.

Lemma z_piece ep (frag : bytes) s :
  (room13 (c_mtu (g_cfg s)) T -> (if ep =? 0 then 13 else 6 + T) + len frag <= c_mtu (g_cfg s)) ->
  R s (snd ((if ep =? 0 then create_plain13 CT_HS true frag else create_cipher13 E CT_HS ep true frag) s)).
Proof.
  intros H. destruct (ep =? 0) eqn:He.
  - apply z_plain. intros Hr _ _. cbn. apply H, Hr.
  - apply z_cipher. intros Hr _ _. cbn. rewrite He. apply H, Hr.
Qed.

Lemma z_frag_loop mt total seq ep prot : prot = (if ep =? 0 then 0 else T + 1) ->
  forall fuel off rest s, R s (snd (frag_loop13 E fuel mt total seq ep prot off rest s)).
Proof.
  intros Hp. induction fuel as [|fuel IH]; intros off rest s; destruct rest as [|b rest0]; try apply PO.
  cbn [frag_loop13]. set (rest := b :: rest0). unfold bind at 1, get. cbv zeta.
  set (used := match rev (g_tx s) with [] => 0 | b1 :: _ => len b1 end).
  set (avail := if _ <? _ then _ else _). set (chunk := N.min (len rest) avail).
  unfold bind. match goal with |- context [(if ep =? 0 then create_plain13 CT_HS true ?f else _) s] => set (frag := f) end.
  assert (P : R s (snd ((if ep =? 0 then create_plain13 CT_HS true frag else create_cipher13 E CT_HS ep true frag) s))).
  { apply z_piece. intros [R1 R2]. unfold frag. rewrite len_app, len_hs_header.
    assert (L : len (firstn (N.to_nat chunk) rest) <= chunk) by (unfold len; rewrite firstn_length; lia).
    assert (C : chunk <= avail) by lia.
    assert (A : (if ep =? 0 then 13 else 5) + 12 + prot + avail <= c_mtu (g_cfg s)).
    { unfold avail. clear - R1 R2 Hp. subst prot. destruct (ep =? 0).
      - destruct (13 + 12 + 0 <? c_mtu (g_cfg s) - used) eqn:?; lia.
      - destruct (5 + 12 + (T + 1) <? c_mtu (g_cfg s) - used) eqn:?; lia. }
    subst prot. destruct (ep =? 0); lia. }
  destruct ((if ep =? 0 then create_plain13 CT_HS true frag else create_cipher13 E CT_HS ep true frag) s) as [[u|x|n] s1];
    cbn [snd] in *; [|exact P..].
  eapply (po_trans _ PO); [exact P|]. apply IH.
Qed.


Lemma z_handshake mt mk : pres R mk -> pres R (create_handshake13 E mt mk).
Proof.
  intros Hm s. unfold create_handshake13. unfold bind at 1. specialize (Hm s). destruct (mk s) as [[body|x|n] s1]; cbn [snd] in *; [|exact Hm..].
  eapply (po_trans _ PO); [exact Hm|]. clear Hm. unfold bind at 1, get. unfold bind at 1, modify. unfold bind at 1.
  match goal with |- Rz _ _ _ (snd (_ ?x)) => set (s2 := x) end.
  assert (K : R s1 s2) by (split; [reflexivity|]; intros _ H; exact H). eapply (po_trans _ PO); [exact K|].
  set (total := u32 (len body)). set (sq := g_next_hs s1). clearbody s2 total sq. clear K.
  set (ep := mt13_epoch mt). unfold bind at 1.
  assert (P : (exists prot, (if ep =? 0 then ret 0 else let! i := suite_provider13 E in ret (N.of_nat (s13_tag i) + 1)) s2 = (Ok prot, s2) /\
                prot = if ep =? 0 then 0 else T + 1) \/
              exists n, (if ep =? 0 then ret 0 else let! i := suite_provider13 E in ret (N.of_nat (s13_tag i) + 1)) s2 = (Panic n, s2)).
  { destruct (ep =? 0); [left; exists 0; auto|]. unfold suite_provider13, bind, get.
    destruct (g_suite s2) as [cs|]; [|right; eexists; reflexivity].
    destruct (find13 E cs) as [i|] eqn:Hi; [|right; eexists; reflexivity]. left. eexists. split; [reflexivity|].
    rewrite (proj1 HT cs i Hi). reflexivity. }
  destruct P as [(prot & -> & Hp)|(n & ->)]; [|apply PO].
  destruct body as [|b body0]; [|apply z_frag_loop, Hp].
  apply z_piece. intros [R1 R2]. rewrite len_hs_header. destruct (ep =? 0); lia.
Qed.

Lemma z_saved_le s v : (forall mtu, Forall (small13 mtu T) (g_saved s) -> Forall (small13 mtu T) v) -> R s (set_g_saved v s).
Proof. intros H. split; [reflexivity|]. intros _ [H1 H2]. split; [exact H1|]. cbn. apply H. exact H2. Qed.

Lemma z_resend_loop es : forall s mtu, mtu = c_mtu (g_cfg s) -> Forall (small13 mtu T) es ->
  R s (snd (resend_loop13 E es s)) /\
  match fst (resend_loop13 E es s) with Ok es' => Forall (small13 mtu T) es' | _ => True end.
Proof.
  induction es as [|e es IH]; intros s mtu Hm H; [split; [apply PO|constructor]|].
  inversion H as [|x l H1 H2]; subst. cbn [resend_loop13]. destruct (en13_acked e).
  - unfold bind. destruct (IH s _ eq_refl H2) as [I1 I2]. destruct (resend_loop13 E es s) as [[v|x|n] s1]; cbn [fst snd] in *; auto.
    split; [exact I1|]. constructor; assumption.
  - unfold bind, get.
    set (sq := if en13_epoch e =? 0 then g_seq0 s else ctx_seq s (ctx13 s (en13_epoch e))). clearbody sq.
    assert (P : R s (snd ((if en13_epoch e =? 0 then create_plain13 (en13_ctype e) false (en13_frag e)
                           else create_cipher13 E (en13_ctype e) (en13_epoch e) false (en13_frag e)) s))).
    { destruct (en13_epoch e =? 0) eqn:He; [apply z_plain|apply z_cipher]; intros _ _ Hc; specialize (H1 Hc); cbn; rewrite He in *; exact H1. }
    destruct ((if en13_epoch e =? 0 then create_plain13 (en13_ctype e) false (en13_frag e)
                           else create_cipher13 E (en13_ctype e) (en13_epoch e) false (en13_frag e)) s) as [[u|x|n] s1]; cbn [fst snd] in *; [|split; [exact P|exact Logic.I]..].
    destruct (IH s1 (c_mtu (g_cfg s))) as [I1 I2]; [f_equal; apply P|exact H2|].
    destruct (resend_loop13 E es s1) as [[v|x|n] s2]; cbn [fst snd] in *; (split; [exact (po_trans _ PO _ _ _ P I1)|]); auto.
    constructor; [exact H1|exact I2].
Qed.
Lemma z_resend : pres R (flight_resend13 E).
Proof.
  intro s. unfold flight_resend13. unfold bind at 1, get. unfold bind at 1, modify.
  set (s1 := set_g_sealed true (set_g_saved [] s)).
  assert (K1 : g_cfg s1 = g_cfg s) by reflexivity.
  assert (Kt : g_tx s1 = g_tx s) by reflexivity. assert (Ks : g_saved s1 = []) by reflexivity. clearbody s1.
  pose proof (z_resend_loop (g_saved s) s1 (c_mtu (g_cfg s))) as Z. rewrite K1 in Z. specialize (Z eq_refl).
  unfold bind.
  assert (A : g_cfg s = g_cfg (snd (resend_loop13 E (g_saved s) s1))).
  { rewrite <- K1. assert (Q : pres (fun a b => g_cfg a = g_cfg b) (resend_loop13 E (g_saved s))); [|apply Q].
    generalize (g_saved s). clear. intro es. induction es as [|e es IH]; cbn [resend_loop13]; [apply (pres_ret _ (preorder_eq g_cfg))|].
    presauto (preorder_eq g_cfg) ltac:(first [exact IH
      |apply op_create_plain; try (intros; reflexivity); apply preorder_eq
      |apply op_create_cipher; try (intros; reflexivity); apply preorder_eq]). }
  destruct (resend_loop13 E (g_saved s) s1) as [[v|x|n] s2]; cbn [fst snd] in *; (split; [exact A|]); intros Hr [H1 H2];
    destruct (Z H2) as [[_ Z1] Z2]; assert (S1 : sizes13 E T s1) by (split; rewrite K1, ?Kt, ?Ks; [exact H1|constructor]);
    rewrite K1 in Z1; specialize (Z1 Hr S1); [|exact Z1..].
  split; [apply Z1|]. cbn. rewrite <- A. exact Z2.
Qed.

Ltac ztriv := intros; split; [reflexivity|exact (fun _ H => H)].
Lemma z_begin : pres R (flight_begin13 E).
Proof.
  intro s. unfold flight_begin13, draw13, bind, modify. cbn [snd]. split; [reflexivity|]. intros _ [H1 H2]. split; [exact H1|constructor].
Qed.
Lemma z_key_update b : pres R (create_key_update E b).
Proof.
  unfold create_key_update. apply pres_bind; [exact (Rz_po E T)|apply z_begin|intros _]. intro s. unfold bind at 1, get. unfold bind at 1, modify.
  match goal with |- Rz _ _ _ (snd (_ ?x)) => set (s2 := x) end. set (sq := g_next_hs s). set (ep := g_epoch s).
  assert (K : R s s2) by ztriv. eapply (po_trans _ PO); [exact K|]. clearbody s2 sq ep. clear - HT.
  unfold bind. match goal with |- context [create_cipher13 E CT_HS ep true ?g s2] => set (f := g) end.
  assert (L : len f = 13) by (unfold f; rewrite len_app, len_hs_header; reflexivity).  clearbody f.
  assert (P : R s2 (snd (create_cipher13 E CT_HS ep true f s2))).
  { apply z_cipher. intros [R1 R2] _ _. cbn. destruct (ep =? 0); lia. }
  destruct (create_cipher13 E CT_HS ep true f s2) as [[u|x|n] s3]; cbn [snd] in *; [|exact P..].
  eapply (po_trans _ PO); [exact P|]. ztriv.
Qed.
Lemma z_send_ack_inner sv : pres R (send_ack_inner E sv).
Proof.
  unfold send_ack_inner. presauto (Rz_po E T) ltac:(first [apply z_cipher_other; first [assumption|discriminate] | apply pres_modify; ztriv]).
Qed.
Lemma z_ack_ret : pres R (send_ack_retransmittable E).
Proof.
  unfold send_ack_retransmittable. presauto (Rz_po E T) ltac:(first [apply z_send_ack_inner | apply pres_modify; intro; apply z_saved_le; constructor]).
Qed.
Lemma z_update_send : pres R (update_send_keys E).
Proof. fr13 ltac:(first [exact (Rz_po E T) | ztriv]). Qed.
Lemma z_process_ack d : pres R (process_ack E d).
Proof.
  unfold process_ack. presauto (Rz_po E T) ltac:(first [apply z_update_send
    | apply pres_modify; intro s; apply z_saved_le; intros mtu H; apply Forall_map; eapply Forall_impl; [|exact H];
      intros e He; unfold mark_acked; destruct (existsb _ _); exact He
    | apply pres_modify; intro s; split; [reflexivity|]; intros _ [H1 H2]; split; [exact H1|constructor]]).
Qed.
Lemma z_poll cap : pres R (poll_packet_tx13 cap).
Proof.
  intro s. unfold poll_packet_tx13, bind, get. destruct (g_tx s) as [|p r] eqn:Ht; [apply PO|].
  destruct (cap <? len p); [apply PO|]. split; [reflexivity|]. intros _ [H1 H2]. rewrite Ht in H1. inversion H1. split; assumption.
Qed.
Ltac zmod := apply pres_modify; ztriv.
Lemma z_insert_hs inc r h : pres R (insert_handshake13 E inc r h).
Proof.
  unfold insert_handshake13, bsearch13.
  presauto (Rz_po E T) ltac:(first [apply z_resend|apply op_draw13; [exact (Rz_po E T)|ztriv]|zmod]).
Qed.
Lemma z_flush now : pres R (maybe_flush_ack E now).
Proof. unfold maybe_flush_ack. presauto (Rz_po E T) ltac:(first [apply z_cipher_other; discriminate|zmod]). Qed.
Lemma z_timeout now : pres R (eng13_handle_timeout E now).
Proof.
  unfold eng13_handle_timeout.
  presauto (Rz_po E T) ltac:(first [apply z_flush|apply z_resend|apply op_draw13; [exact (Rz_po E T)|ztriv]|zmod
    |apply pres_modify; intro s; destruct (maybe_ack_set now s) as [d ->]; ztriv]).
Qed.
Lemma z_frame : eng_frame13 E R.
Proof.
  frame13_over
    ltac:(first [apply z_handshake; fr13 ltac:(first [exact (Rz_po E T) | ztriv]) | apply z_resend | apply z_begin | apply z_key_update | apply z_ack_ret | apply z_send_ack_inner
      | apply z_insert_hs | apply z_flush | apply z_timeout | apply z_process_ack | apply z_poll | apply z_cipher_other; first [assumption|discriminate] | apply z_plain_other; discriminate
      | apply pres_modify; intro s; split; [reflexivity|]; intros _ [H1 H2]; (split; first [exact H1|exact H2|constructor])])
    ltac:(first [exact (Rz_po E T)|ztriv|idtac]).
Qed.
End Sizes.
