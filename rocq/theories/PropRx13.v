(** C03, C29 and C31 for DTLS 1.3: received records and receive keys. *)
From Verif Require Import Prelude PreludeFacts Types Codec Codec12 Codec13 Record12 Record13 Monad MonadFacts Env Config Window WindowProofs
  Engine12 Client12 Engine13 Client13 Server13 Toy History12 Conn12 History13 Frame13 Lift13 Send13Proofs Rx13Proofs PropPoll13
  Trace13 Trace13Proofs Index13 Conn13.

(** ** The window remembers *)

Lemma wbit w o : N.land w (N.shiftl 1 o) = 0 <-> N.testbit w o = false.
Proof.
  rewrite N.shiftl_1_l. split; intro H.
  - assert (K : N.testbit (N.land w (2 ^ o)) o = false) by (rewrite H; apply N.bits_0).
    rewrite N.land_spec, N.pow2_bits_true, andb_true_r in K. exact K.
  - apply N.bits_inj. intro i. rewrite N.bits_0, N.land_spec, N.pow2_bits_eqb.
    destruct (N.eqb_spec o i) as [<-|]; [rewrite H; reflexivity|apply andb_false_r].
Qed.
Lemma check_false w q : window_check w q = false <-> q <= w_max w /\ (64 <= w_max w - q \/ N.testbit (w_bits w) (w_max w - q) = true).
Proof.
  unfold window_check. destruct (N.ltb_spec (w_max w) q); [split; [discriminate|lia]|].
  destruct (N.leb_spec 64 (w_max w - q)); [split; auto|].
  destruct (N.eqb_spec (N.land (w_bits w) (N.shiftl 1 (w_max w - q))) 0) as [H1|H1].
  - apply wbit in H1. rewrite H1. split; [discriminate|]. intros [_ [?|?]]; [lia|discriminate].
  - split; [|reflexivity]. intros _. split; [assumption|right].
    destruct (N.testbit (w_bits w) (w_max w - q)) eqn:K; [reflexivity|]. apply wbit in K. contradiction.
Qed.
Lemma window_mono w s q : window_check w q = false -> window_check (window_update w s) q = false.
Proof.
  rewrite !check_false. intros [H1 H2]. unfold window_update. destruct (N.ltb_spec (w_max w) s) as [Hs|Hs].
  - destruct (N.ltb_spec 63 (s - w_max w)) as [Hd|Hd]; cbn [w_max w_bits]; [split; [lia|left; lia]|].
    split; [lia|]. destruct (N.leb_spec 64 (s - q)) as [Hq|Hq]; [left; exact Hq|right].
    destruct H2 as [H2|H2]; [lia|]. rewrite N.lor_spec. unfold u64. rewrite <- N.land_ones, N.land_spec.
    replace (N.testbit (N.ones 64) (s - q)) with true by (symmetry; apply N.ones_spec_low; lia).
    rewrite andb_true_r, N.shiftl_spec_high' by lia.
    replace (s - q - (s - w_max w)) with (w_max w - q) by lia. rewrite H2. reflexivity.
  - destruct (N.ltb_spec (w_max w - s) 64); [|split; assumption]. cbn [w_max w_bits]. split; [assumption|].
    destruct H2 as [H2|H2]; [left; exact H2|right]. rewrite N.lor_spec, H2. reflexivity.
Qed.
Lemma window_marks w q : window_check w q = true -> window_check (window_update w q) q = false.
Proof.
  intro H. apply check_false. unfold window_check in H. unfold window_update. destruct (N.ltb_spec (w_max w) q) as [Hs|Hs].
  - assert (K : forall b, N.testbit (N.lor b 1) (q - q) = true).
    { intro b. rewrite N.sub_diag, N.lor_spec. apply orb_true_r. }
    destruct (63 <? q - w_max w); cbn [w_max w_bits]; (split; [lia|right]); [rewrite N.sub_diag; reflexivity|apply K].
  - destruct (N.leb_spec 64 (w_max w - q)); [discriminate|].
    replace (w_max w - q <? 64) with true by lia. cbn [w_max w_bits]. split; [assumption|right].
    rewrite N.lor_spec, N.shiftl_1_l, N.pow2_bits_true. apply orb_true_r.
Qed.

(** ** Protected records *)

(** [raw] is taken for a protected record. *)
Definition protected13 (raw : bytes) (e : Eng13) : Prop := is_ct_header (hd 0 raw) = true /\ g_penc e = true.

Lemma rec_parse_opened E raw e r e' : protected13 raw e -> rec_parse13 E raw e = (Ok (Some r), e') ->
  replay_check13 e (r_epoch r) (r_seq r) = true /\ e' = replay_update13 (r_epoch r) (r_seq r) e.
Proof.
  intros [Hc Hp] H.
  assert (W : wp (rec_parse13 E raw) (fun o e' => match o with Ok (Some r) =>
    replay_check13 e (r_epoch r) (r_seq r) = true /\ e' = replay_update13 (r_epoch r) (r_seq r) e | _ => True end) e).
  { unfold rec_parse13. rewrite Hc. apply wp_bind, wp_get. rewrite Hp. cbn [andb negb orb]. apply wp_bind.
    eapply wp_mono with (P := fun o e1 => e1 = e).
    { unfold unmask13, suite_provider13. wps; reflexivity. }
    intros [buf|x|n] e1 ->; [|exact I..]. destruct (p_parsed13 buf) as [[r0 he]|]; [|apply wp_ret; exact I].
    set (ep := resolve_epoch e (r_epoch r0)). set (sq := resolve_sequence e ep (r_seq r0) (flag_s (hd 0 raw))).
    destruct (replay_check13 e ep sq) eqn:Hr; cbn [negb]; [|apply wp_ret; exact I].
    apply wp_bind. eapply wp_mono with (P := fun o e1 => e1 = e).
    { unfold suite_provider13. wps; reflexivity. }
    intros [i|x|n] e1 ->; [|exact I..]. destruct (Nat.ltb _ _); [apply wp_ret; exact I|].
    destruct (recv_keys13 e ep) as [k|]; [|apply wp_ret; exact I].
    destruct (e_open _ _ _ _ _ _) as [pt|]; [|apply wp_ret; exact I].
    apply wp_bind, wp_modify. destruct (inner_type pt) as [[t content]|]; apply wp_ret; [|exact I].
    split; [exact Hr|reflexivity]. }
  unfold wp in W. rewrite H in W. exact W.
Qed.

(** ** C03, the handshake epoch *)

Definition hs_seen (sq : N) (e : Eng13) : Prop := window_check (g_hs_replay e) sq = false.
Lemma hs_seen_frame E sq : eng_frame13 E (fun a b => hs_seen sq a -> hs_seen sq b).
Proof.
  pose proof (preorder_inv (hs_seen sq)) as PO.
  frame13_over ltac:(idtac; lazymatch goal with
    | |- pres _ (rec_parse13 _ _) => unfold rec_parse13;
        presauto PO ltac:(first [apply op_unmask; exact PO | apply op_suite_provider; exact PO
          | apply pres_modify; intros s H; unfold replay_update13; destruct (_ =? 2); [apply window_mono; exact H|exact H]])
    end) ltac:(first [exact PO | intros v s H; exact H | intros s H; exact H | intros; assumption]).
Qed.

Definition set_end13_eng (e : Eng13) (s : End13) : End13 :=
  match s with XC c => XC (set_xc_eng e c) | XS s => XS (set_xs_eng e s) end.

(** Once a record of the handshake epoch was opened, no record with its number is
    opened again in that epoch, whatever is called in between. *)
Theorem C03_handshake_once13 : forall E s1 raw r e1 h s2 raw2 r2 e2,
  protected13 raw (end13_eng s1) -> rec_parse13 E raw (end13_eng s1) = (Ok (Some r), e1) -> r_epoch r = 2 ->
  history13 E (set_end13_eng e1 s1) h s2 ->
  protected13 raw2 (end13_eng s2) -> rec_parse13 E raw2 (end13_eng s2) = (Ok (Some r2), e2) -> r_epoch r2 = 2 ->
  r_seq r2 <> r_seq r.
Proof.
  intros E s1 raw r e1 h s2 raw2 r2 e2 P1 H1 E1 H P2 H2 E2 Eq.
  destruct (rec_parse_opened _ _ _ _ _ P1 H1) as [C1 ->]. destruct (rec_parse_opened _ _ _ _ _ P2 H2) as [C2 _].
  rewrite E1 in *. rewrite E2 in *. unfold replay_check13 in C1, C2.
  assert (S1 : hs_seen (r_seq r) (end13_eng (set_end13_eng (replay_update13 2 (r_seq r) (end13_eng s1)) s1))).
  { replace (end13_eng (set_end13_eng _ s1)) with (replay_update13 2 (r_seq r) (end13_eng s1)) by (destruct s1; reflexivity).
    apply window_marks. exact C1. }
  pose proof (lf_history13 E _ (hs_seen_frame E (r_seq r)) _ _ _ H S1) as S2. unfold hs_seen in S2. rewrite Eq in C2.
  change (window_check (g_hs_replay (end13_eng s2)) (r_seq r) = true) in C2. congruence.
Qed.
Print Assumptions C03_handshake_once13.

(** ** C03, the application epochs *)

(** The newest receive epoch. *)
Definition last_epoch (e : Eng13) : option N :=
  match rev (g_recv e) with [] => None | x :: _ => Some (re_epoch x) end.
Definition oeqb (a b : option N) : bool :=
  match a, b with Some x, Some y => x =? y | None, None => true | _, _ => false end.
(** A step that changes it. *)
Definition rekeys_x (m : XMove) : bool := let '(c, _, c') := m in negb (oeqb (last_epoch (xc_eng c)) (last_epoch (xc_eng c'))).
Definition rekeys_y (m : YMove) : bool := let '(c, _, c') := m in negb (oeqb (last_epoch (xs_eng c)) (last_epoch (xs_eng c'))).
(** The number of those made by the calls [cs]. *)
Definition rekeys (E : Env) (cs : list Call) (s : End13) : N :=
  match s with XC c => count rekeys_x (x_trace E cs c) | XS s => count rekeys_y (y_trace E cs s) end.
(** The endpoint after the calls [cs]. *)
Definition run13 (E : Env) (cs : list Call) (s : End13) : End13 :=
  fold_left (fun s c => snd (end13_call E c s)) cs s.

(** The states after the installation of the application keys. *)
Definition keyed_x (st : CState13) : Prop :=
  match st with
  | CT_SendCertificate | CT_SendCertificateVerify | CT_SendFinished
  | CT_AwaitApplicationData | CT_HalfClosedLocal | CT_Closed => True
  | _ => False
  end.
Definition keyed_y (st : SState13) : Prop :=
  match st with
  | ST_AwaitCertificate | ST_AwaitCertificateVerify | ST_AwaitFinished
  | ST_AwaitApplicationData | ST_HalfClosedLocal | ST_Closed => True
  | _ => False
  end.
Definition keyed13 (s : End13) : Prop := match s with XC c => keyed_x (xc_state c) | XS s => keyed_y (xs_state s) end.

Section Seen.
Variable E : Env.
Variables (L ep sq : N).
Hypothesis HL : L < 2^16.
Hypothesis Hep : ep < 2^16.
Definition unseen_later (k : N) : Prop := (L + 2^16 - ep) mod 2^16 + k < 2^16.
Definition app_seen (e : Eng13) : Prop :=
  Forall (fun x => re_epoch x = ep -> window_check (re_win x) sq = false) (g_recv e).
Definition J (k : N) (e : Eng13) : Prop :=
  unseen_later k -> last_epoch e = Some (u16 (L + k)) /\ app_seen e.

Lemma upd_epochs q f l : (forall x, re_epoch (f x) = re_epoch x) -> map re_epoch (upd_recv q f l) = map re_epoch l.
Proof.
  intro H. induction l as [|x l IH]; [reflexivity|]. cbn [upd_recv]. destruct (re_epoch x =? q); cbn [map]; [rewrite H; reflexivity|rewrite IH; reflexivity].
Qed.
Lemma last_epoch_map a b : map re_epoch (g_recv a) = map re_epoch (g_recv b) -> last_epoch a = last_epoch b.
Proof.
  intro H. unfold last_epoch. apply (f_equal (@rev N)) in H. rewrite <- !map_rev in H.
  destruct (rev (g_recv a)), (rev (g_recv b)); cbn in H; congruence.
Qed.
Lemma J_update k q n s : J k s -> J k (replay_update13 q n s).
Proof.
  intros H U. specialize (H U). unfold replay_update13. destruct (q =? 2); [exact H|]. destruct H as [H1 H2]. split.
  - rewrite <- H1. apply last_epoch_map. cbn [g_recv set_g_recv]. apply upd_epochs. reflexivity.
  - unfold app_seen in *. cbn [g_recv set_g_recv]. clear H1. induction (g_recv s) as [|x l IH]; [constructor|].
    inversion H2; subst. cbn [upd_recv]. destruct (re_epoch x =? q) eqn:Hq.
    + constructor; [|assumption]. cbn [note_seq re_epoch re_win]. intro K. apply window_mono. auto.
    + constructor; auto.
Qed.
Lemma J_eq k a b : g_recv b = g_recv a -> J k a -> J k b.
Proof. intros H. unfold J, last_epoch, app_seen. rewrite H. auto. Qed.

Ltac jover k PO := idtac; lazymatch goal with
    | |- pres _ (rec_parse13 _ _) => unfold rec_parse13;
        presauto PO ltac:(first [apply op_unmask; exact PO | apply op_suite_provider; exact PO
          | apply pres_modify; intros s H; apply J_update; exact H])
    end.
Ltac jpre k PO := first [exact PO | intros v s H; exact (J_eq k _ _ eq_refl H) | intros s H; exact (J_eq k _ _ eq_refl H) | intros; match goal with H : J _ _ |- _ => exact (J_eq k _ _ eq_refl H) end].
Lemma J_call k : call_frame13 E (fun a b => J k a -> J k b).
Proof.
  pose proof (preorder_inv (J k)) as PO.
  call13_over ltac:(jover k PO) ltac:(jpre k PO).
Qed.

(** The same, together with the newest epoch. *)
Definition JE k : Eng13 -> Eng13 -> Prop := fun a b => (J k a -> J k b) /\ last_epoch b = last_epoch a.
Lemma JE_po k : preorder (JE k).
Proof. apply preorder_and; [apply preorder_inv|split; congruence]. Qed.
Lemma JE_eq k a b : g_recv b = g_recv a -> JE k a b.
Proof. intros H. split; [apply J_eq, H|]. unfold last_epoch. rewrite H. reflexivity. Qed.
Lemma JE_update k q n s : JE k s (replay_update13 q n s).
Proof.
  split; [apply J_update|]. unfold replay_update13. destruct (q =? 2); [reflexivity|]. apply last_epoch_map.
  cbn [g_recv set_g_recv]. apply upd_epochs. reflexivity.
Qed.
Ltac je k := pose proof (JE_po k) as PO; fr13o ltac:(idtac; lazymatch goal with
    | |- pres _ (rec_parse13 _ _) => unfold rec_parse13;
        presauto PO ltac:(first [apply op_unmask; exact PO | apply op_suite_provider; exact PO
          | apply pres_modify; intro; apply JE_update])
    end) ltac:(first [exact PO | assumption | intros; apply JE_eq; reflexivity]).
Lemma j_begin k : pres (JE k) (flight_begin13 E). Proof. je k. Qed.
Lemma j_hs k mt mk : pres (JE k) mk -> pres (JE k) (create_handshake13 E mt mk). Proof. intro. je k. Qed.
Lemma j_next k a b w : pres (JE k) (next_handshake13_gen a b w). Proof. je k. Qed.
Lemma j_adv k : pres (JE k) advance_peer. Proof. je k. Qed.
Lemma j_rel k : pres (JE k) release13. Proof. je k. Qed.
Lemma j_relr k : pres (JE k) release13_retaining. Proof. je k. Qed.
Lemma j_needs k : pres (JE k) take_needs_key_update. Proof. je k. Qed.
Lemma j_ku k b : pres (JE k) (create_key_update E b). Proof. je k. Qed.
Lemma j_cipher k ct e f : pres (JE k) (create_cipher13 E ct e false f). Proof. je k. Qed.
Lemma j_ack k : pres (JE k) (send_ack13 E). Proof. je k. Qed.
Lemma j_ackr k : pres (JE k) (send_ack_retransmittable E). Proof. je k. Qed.
Lemma j_stop k : pres (JE k) stop_timers13. Proof. je k. Qed.
Lemma j_verify k x : pres (JE k) (compute_verify_data E x). Proof. apply op_verify_data, JE_po. Qed.
Lemma j_hash k : pres (JE k) (transcript_hash13 E). Proof. apply op_transcript_hash, JE_po. Qed.
Lemma j_keying k p : pres (JE k) (keying13 E p). Proof. apply op_keying, JE_po. Qed.
Lemma j_cert k c : pres (JE k) (create_certificate13 c). Proof. apply fr_create_cert13, JE_po. Qed.
Lemma j_cv k c : pres (JE k) (create_certificate_verify13 E c).
Proof. apply fr_create_cv13; [apply JE_po|intros v s; apply JE_eq; reflexivity]. Qed.
Lemma j_check k a b c d e : pres (JE k) (check_certificate_verify E a b c d e).
Proof. apply fr_check_cv13, JE_po. Qed.
Ltac jleaf := first [apply j_begin|apply j_hs; first [apply j_cert|apply j_cv|apply j_verify|apply pres_ret, JE_po]|apply j_next|apply j_adv|apply j_rel|apply j_relr|apply j_needs|apply j_ku|apply j_cipher
  |apply j_ack|apply j_ackr|apply j_stop|apply j_verify|apply j_hash|apply j_keying|apply j_cert|apply j_cv|apply j_check].

(** A change of the receive keys. *)
Definition JU k (a b : Eng13) : Prop := J k a -> J (k + 1) b /\ exists x, last_epoch a = Some x /\ last_epoch b = Some (u16 (x + 1)).
Lemma j_update_recv k s : wp (update_recv_keys E) (fun r s' => match r with Ok _ => JU k s s' | _ => JE k s s' end) s.
Proof using All.
  unfold update_recv_keys. apply wp_bind, wp_get. destruct (rev (g_recv s)) as [|la rest] eqn:Hr; [apply wp_fail, JE_po|].
  apply wp_bind. eapply wp_mono; [apply (wp_pres (fun a b => b = a)), op_next_secret; split; congruence|].
  intros [nx|x|n] s1 ->; [|apply JE_po..]. apply wp_bind.
  eapply wp_mono; [apply (wp_pres (fun a b => b = a)), op_derive_epoch_keys; split; congruence|].
  intros [ks|x|n] s1 ->; [|apply JE_po..]. apply wp_bind.
  assert (G : forall s1, (exists pre, g_recv s = pre ++ g_recv s1) -> g_recv s1 <> [] -> JE k s s1 /\
    JU k s (set_g_recv (g_recv s1 ++ [mkRecv13 (u16 (re_epoch la + 1)) ks 0 window_new]) s1)).
  { intros s1 [pre Hp] Hn. assert (Hl : last_epoch s1 = last_epoch s).
    { unfold last_epoch. rewrite Hp, rev_app_distr. destruct (rev (g_recv s1)) eqn:K; [|reflexivity].
      apply (f_equal (@rev _)) in K. rewrite rev_involutive in K. contradiction. }
    assert (Ha : app_seen s -> app_seen s1).
    { unfold app_seen. rewrite Hp. intro K. apply Forall_app in K. apply K. }
    split; [split; [|exact Hl]|intro H; split].
    - intros H U. destruct (H U) as [H1 H2]. split; [congruence|auto].
    - intro U. assert (U0 : unseen_later k) by (unfold unseen_later in *; lia). destruct (H U0) as [H1 H2].
      assert (Hla : re_epoch la = u16 (L + k)) by (unfold last_epoch in H1; rewrite Hr in H1; congruence).
      assert (Hx : u16 (re_epoch la + 1) = u16 (L + (k + 1))).
      { rewrite Hla. unfold u16. rewrite N.add_mod_idemp_l by lia. f_equal. lia. }
      split.
      + unfold last_epoch. cbn [g_recv set_g_recv]. rewrite rev_app_distr. cbn [rev app re_epoch]. rewrite Hx. reflexivity.
      + unfold app_seen. cbn [g_recv set_g_recv]. apply Forall_app. split; [apply Ha, H2|]. constructor; [|constructor].
        cbn [re_epoch]. rewrite Hx. intro K. exfalso. unfold unseen_later, u16 in *. rewrite <- K in U.
        clear - U HL. set (m := 2 ^ 16) in *. assert (m = 65536) by reflexivity.
        pose proof (N.mod_lt (L + (k + 1)) m ltac:(lia)) as B1.
        pose proof (N.div_mod' (L + (k + 1)) m) as B2.
        set (a := (L + (k + 1)) mod m) in *. set (d := (L + (k + 1)) / m) in *.
        pose proof (N.mod_lt (L + m - a) m ltac:(lia)) as B3. pose proof (N.div_mod' (L + m - a) m) as B4.
        set (b := (L + m - a) mod m) in *. set (g := (L + m - a) / m) in *.
        assert (g = 0 \/ g = 1) by nia. nia.
    - exists (re_epoch la). split; [unfold last_epoch; rewrite Hr; reflexivity|].
      unfold last_epoch. cbn [g_recv set_g_recv]. rewrite rev_app_distr. reflexivity. }
  destruct (Nat.leb 4 (length (g_recv s))) eqn:H4; cbn [when].
  - apply wp_modify. unfold push_recv. apply wp_bind, wp_get. cbn [g_recv set_g_recv].
    destruct (g_recv s) as [|x l] eqn:Hg; [discriminate H4|]. cbn [tl].
    assert (Hn : l <> []) by (destruct l; [discriminate H4|discriminate]).
    specialize (G (set_g_recv l s)). cbn [g_recv set_g_recv] in G.
    destruct (G (ex_intro _ [x] eq_refl) Hn) as [G1 G2].
    destruct (Nat.leb 4 (length l)); [apply wp_panic; exact G1|apply wp_modify; exact G2].
  - apply wp_ret. unfold push_recv. apply wp_bind, wp_get. rewrite H4.
    apply wp_modify. apply G; [exists []; reflexivity|]. intro K. rewrite K in Hr. discriminate Hr.
Qed.

(** What one step does. *)
Definition JS k (a b : Eng13) : Prop := JE k a b \/ JU k a b.
Lemma JS_l k a b c : JE k a b -> JS k b c -> JS k a c.
Proof.
  intros H [K|K]; [left; eapply JE_po; eassumption|right]. intro X. destruct H as [H1 H2]. destruct (K (H1 X)) as [K1 K2].
  rewrite H2 in K2. auto.
Qed.
Lemma JS_r k a b c : JS k a b -> (forall k, JE k b c) -> JS k a c.
Proof.
  intros [K|K] H; [left; eapply JE_po; eauto|right]. intro X. destruct (K X) as [K1 K2]. destruct (H (k + 1)) as [H1 H2].
  rewrite H2. auto.
Qed.
Lemma JS_end k a b : JS k a b -> J k a -> J (k + if negb (oeqb (last_epoch a) (last_epoch b)) then 1 else 0) b.
Proof.
  intros [[H1 H2]|H] X.
  - rewrite H2. replace (oeqb _ _) with true; [rewrite N.add_0_r; auto|].
    destruct (last_epoch a); cbn; [symmetry; apply N.eqb_refl|reflexivity].
  - destruct (H X) as (H1 & x & Ha & Hb). rewrite Ha, Hb. cbn [oeqb]. replace (x =? u16 (x + 1)) with false; [exact H1|].
    symmetry. apply N.eqb_neq. intro K. unfold u16 in K. pose proof (N.div_mod' (x + 1) (2^16)) as D.
    pose proof (N.mod_lt (x + 1) (2^16) ltac:(lia)). lia.
Qed.

Definition XR k (a b : Client13) : Prop := JE k (xc_eng a) (xc_eng b) /\ xc_state b = xc_state a.
Lemma XR_po k : preorder (XR k).
Proof.
  destruct (JE_po k) as [r t]. split; [split; auto|]. intros a b c [H1 H2] [H3 H4]. split; [eauto|congruence].
Qed.
Lemma XR_eng {A} k (m : M Eng13 A) : pres (JE k) m -> pres (XR k) (xeng m).
Proof. intros H c. unfold xeng, zoom. specialize (H (xc_eng c)). destruct (m (xc_eng c)) as [r e]. split; [exact H|reflexivity]. Qed.
Definition XQ k (c0 : Client13) (r : res CState13) (c : Client13) : Prop :=
  JS k (xc_eng c0) (xc_eng c) /\ xc_state c = xc_state c0 /\ match r with Ok st => keyed_x st | _ => True end.
Lemma XQ_same k c0 r c : XR k c0 c -> match r with Ok st => keyed_x st | _ => True end -> XQ k c0 r c.
Proof. intros [H1 H2] H. split; [left; exact H1|auto]. Qed.
Lemma XQ_after k c0 c1 r c : JS k (xc_eng c0) (xc_eng c1) -> xc_state c1 = xc_state c0 -> (forall k, XR k c1 c) ->
  match r with Ok st => keyed_x st | _ => True end -> XQ k c0 r c.
Proof.
  intros H1 H2 H3 H. split; [|split; [|exact H]].
  - eapply JS_r; [exact H1|]. intro k1. apply (H3 k1).
  - destruct (H3 k). congruence.
Qed.
Ltac xleaf k := first [apply XR_eng; jleaf | apply pres_modify; intro; split; [apply JE_po|reflexivity]].
Ltac xres := first [exact I | intros [?|?|?] ? ?; exact I].

Lemma x_step_ret st : keyed_x st -> rets keyed_x (x_step E st).
Proof.
  intro H. destruct st; try contradiction H; cbn [x_step];
    unfold x_send_certificate, x_send_certificate_verify, x_send_finished, x_await_application_data, x_half_closed_local;
    rets ltac:(first [exact I | match goal with |- keyed_x (if ?b then _ else _) => destruct b; exact I end]).
Qed.
Lemma x_step_early k st c : keyed_x st -> st <> CT_AwaitApplicationData -> st <> CT_HalfClosedLocal ->
  wp (x_step E st) (fun _ => XR k c) c.
Proof.
  intros H N1 N2. pose proof (XR_po k) as PO. apply (wp_pres (XR k)).
  destruct st; try contradiction H; try congruence; cbn [x_step];
    unfold x_send_certificate, x_send_certificate_verify, x_send_finished; presauto PO ltac:(xleaf k).
Qed.
(** The receive keys are changed at most once by a step. *)
Definition XW k (c0 c : Client13) : Prop := JS k (xc_eng c0) (xc_eng c) /\ xc_state c = xc_state c0.
Lemma XW_same k c0 c : XR k c0 c -> XW k c0 c.
Proof. intros [H1 H2]. split; [left; exact H1|exact H2]. Qed.
Lemma XW_after k c0 c1 c : XW k c0 c1 -> (forall k, XR k c1 c) -> XW k c0 c.
Proof.
  intros [H1 H2] H3. split; [eapply JS_r; [exact H1|]; intro k1; apply (H3 k1)|]. destruct (H3 k). congruence.
Qed.
Lemma x_update k c0 c (Q : res unit -> Client13 -> Prop) : XR k c0 c -> (forall r c1, XW k c0 c1 -> Q r c1) ->
  wp (xeng (update_recv_keys E)) Q c.
Proof using All.
  intros H HQ. apply wp_zoom. eapply wp_mono; [apply (j_update_recv k)|]. intros r e1 K. apply HQ.
  destruct H as [H1 H2]. split; [|exact H2]. eapply JS_l; [exact H1|]. destruct r; [right|left..]; exact K.
Qed.
Lemma forall_pres {A} (m : M Client13 A) c r c1 : (forall k, pres (XR k) m) -> m c = (r, c1) -> forall k, XR k c c1.
Proof. intros H K k. specialize (H k c). rewrite K in H. exact H. Qed.
Lemma x_await_application_data_j k c : wp (x_await_application_data E) (fun _ => XW k c) c.
Proof.
  pose proof (XR_po k) as PO. unfold x_await_application_data.
  apply wp_bind. eapply wp_mono; [apply (wp_pres (XR k)), XR_eng; jleaf|].
  intros [b|x|n] c1 H1; [|apply XW_same, H1..]. apply wp_bind, wp_get. apply wp_bind.
  eapply wp_mono; [apply (wp_pres (XR k)); presauto PO ltac:(xleaf k)|].
  intros [u|x|n] c2 H2; [|apply XW_same; eapply PO; eassumption..].
  assert (H02 : XR k c c2) by (eapply PO; eassumption).
  apply wp_bind, wp_get. apply wp_bind. apply wp_modify. apply wp_bind.
  eapply wp_mono; [apply (wp_pres (XR k)); presauto PO ltac:(xleaf k)|].
  intros [u3|x|n] c3 H3; (assert (H03 : XR k c c3) by (eapply PO; [exact H02|exact H3])); [|apply XW_same, H03..].
  apply wp_bind. eapply wp_mono; [apply (wp_pres (XR k)); presauto PO ltac:(xleaf k)|].
  intros [u4|x|n] c4 H4; (assert (H04 : XR k c c4) by (eapply PO; [exact H03|exact H4])); [|apply XW_same, H04..].
  apply wp_bind, wp_get. destruct (negb _); [apply wp_ret, XW_same, H04|].
  apply wp_bind. eapply wp_mono; [apply (wp_pres (XR k)), XR_eng, j_next|].
  intros [o|x|n] c5 H5; (assert (H05 : XR k c c5) by (eapply PO; [exact H04|exact H5])); [|apply XW_same, H05..].
  destruct o as [m|]; [|apply wp_ret, XW_same, H05].
  destruct (n_body m); try (apply wp_panic, XW_same, H05).
  apply wp_bind. apply (x_update k c); [exact H05|]. intros [u6|x|n] c6 H6; [|exact H6..].
  apply wp_intro. intros r s' Hr. eapply XW_after; [exact H6|]. eapply forall_pres; [|exact Hr].
  intro k1. pose proof (XR_po k1) as PO1. presauto PO1 ltac:(xleaf k1).
Qed.
Lemma x_half_closed_local_j k c : wp (x_half_closed_local E) (fun _ => XW k c) c.
Proof.
  pose proof (XR_po k) as PO. unfold x_half_closed_local. apply wp_bind, wp_get.
  apply wp_bind. eapply wp_mono with (P := fun _ => XW k c).
  - destruct (has_complete13 _ _); [|apply wp_ret, XW_same, PO].
    apply wp_bind. eapply wp_mono; [apply (wp_pres (XR k)), XR_eng, j_next|].
    intros [[m|]|x|n] c5 H5; [|apply wp_ret, XW_same, H5|apply XW_same, H5..].
    destruct (n_body m); try (apply wp_panic, XW_same, H5).
    apply wp_bind. apply (x_update k c); [exact H5|]. intros [u6|x|n] c6 H6; [|exact H6..].
    apply wp_intro. intros r s' Hr. eapply XW_after; [exact H6|]. eapply forall_pres; [|exact Hr].
    intro k1. apply XR_eng, j_adv.
  - intros [u|x|n] c1 H1; [|exact H1..]. apply wp_bind, wp_get. apply wp_ret. exact H1.
Qed.
Lemma x_J_step k c r c' : keyed_x (xc_state c) -> J k (xc_eng c) -> x_step E (xc_state c) c = (r, c') ->
  J (k + if rekeys_x (c, r, c') then 1 else 0) (xc_eng c') /\ xc_state c' = xc_state c /\
  match r with Ok st => keyed_x st | _ => True end.
Proof.
  intros HB HJ Hs.
  assert (W : XW k c c').
  { assert (K : wp (x_step E (xc_state c)) (fun _ => XW k c) c).
    { destruct (xc_state c) eqn:Hst; try contradiction HB;
        try (eapply wp_mono; [apply (x_step_early k); first [exact I|discriminate]|intros ? ? HH; apply XW_same, HH]).
      - apply x_await_application_data_j.
      - apply x_half_closed_local_j. }
    exact (wp_run _ _ _ _ _ Hs K). }
  destruct W as [W1 W2]. split; [exact (JS_end _ _ _ W1 HJ)|]. split; [exact W2|].
  pose proof (x_step_ret _ HB c) as K. rewrite Hs in K. exact K.
Qed.

(** *** The server *)
Definition YR k (a b : Server13) : Prop := JE k (xs_eng a) (xs_eng b) /\ xs_state b = xs_state a.
Lemma YR_po k : preorder (YR k).
Proof.
  destruct (JE_po k) as [r t]. split; [split; auto|]. intros a b c [H1 H2] [H3 H4]. split; [eauto|congruence].
Qed.
Lemma YR_eng {A} k (m : M Eng13 A) : pres (JE k) m -> pres (YR k) (yeng m).
Proof. intros H c. unfold yeng, zoom. specialize (H (xs_eng c)). destruct (m (xs_eng c)) as [r e]. split; [exact H|reflexivity]. Qed.
Ltac yleaf k := first [apply YR_eng; jleaf | apply pres_modify; intro; split; [apply JE_po|reflexivity]].
Lemma y_step_ret st : keyed_y st -> rets keyed_y (y_step E st).
Proof.
  intro H. destruct st; try contradiction H; cbn [y_step];
    unfold y_await_certificate, y_await_certificate_verify, y_await_finished, y_await_application_data, y_half_closed_local;
    rets ltac:(first [exact I | match goal with |- keyed_y (if ?b then _ else _) => destruct b; exact I end]).
Qed.
Lemma y_step_early k st c : keyed_y st -> st <> ST_AwaitApplicationData -> st <> ST_HalfClosedLocal ->
  wp (y_step E st) (fun _ => YR k c) c.
Proof.
  intros H N1 N2. pose proof (YR_po k) as PO. apply (wp_pres (YR k)).
  destruct st; try contradiction H; try congruence; cbn [y_step];
    unfold y_await_certificate, y_await_certificate_verify, y_await_finished; presauto PO ltac:(yleaf k).
Qed.
Definition YW k (c0 c : Server13) : Prop := JS k (xs_eng c0) (xs_eng c) /\ xs_state c = xs_state c0.
Lemma YW_same k c0 c : YR k c0 c -> YW k c0 c.
Proof. intros [H1 H2]. split; [left; exact H1|exact H2]. Qed.
Lemma YW_after k c0 c1 c : YW k c0 c1 -> (forall k, YR k c1 c) -> YW k c0 c.
Proof.
  intros [H1 H2] H3. split; [eapply JS_r; [exact H1|]; intro k1; apply (H3 k1)|]. destruct (H3 k). congruence.
Qed.
Lemma y_update k c0 c (Q : res unit -> Server13 -> Prop) : YR k c0 c -> (forall r c1, YW k c0 c1 -> Q r c1) ->
  wp (yeng (update_recv_keys E)) Q c.
Proof using All.
  intros H HQ. apply wp_zoom. eapply wp_mono; [apply (j_update_recv k)|]. intros r e1 K. apply HQ.
  destruct H as [H1 H2]. split; [|exact H2]. eapply JS_l; [exact H1|]. destruct r; [right|left..]; exact K.
Qed.
Lemma forall_pres_y {A} (m : M Server13 A) c r c1 : (forall k, pres (YR k) m) -> m c = (r, c1) -> forall k, YR k c c1.
Proof. intros H K k. specialize (H k c). rewrite K in H. exact H. Qed.
Lemma y_await_application_data_j k c : wp (y_await_application_data E) (fun _ => YW k c) c.
Proof.
  pose proof (YR_po k) as PO. unfold y_await_application_data.
  apply wp_bind. eapply wp_mono; [apply (wp_pres (YR k)), YR_eng; jleaf|].
  intros [b|x|n] c1 H1; [|apply YW_same, H1..]. apply wp_bind, wp_get. apply wp_bind.
  eapply wp_mono; [apply (wp_pres (YR k)); presauto PO ltac:(yleaf k)|].
  intros [u|x|n] c2 H2; [|apply YW_same; eapply PO; eassumption..].
  assert (H02 : YR k c c2) by (eapply PO; eassumption).
  apply wp_bind, wp_get. apply wp_bind. apply wp_modify. apply wp_bind.
  eapply wp_mono; [apply (wp_pres (YR k)); presauto PO ltac:(yleaf k)|].
  intros [u3|x|n] c3 H3; (assert (H03 : YR k c c3) by (eapply PO; [exact H02|exact H3])); [|apply YW_same, H03..].
  apply wp_bind. eapply wp_mono; [apply (wp_pres (YR k)); presauto PO ltac:(yleaf k)|].
  intros [u4|x|n] c4 H4; (assert (H04 : YR k c c4) by (eapply PO; [exact H03|exact H4])); [|apply YW_same, H04..].
  apply wp_bind, wp_get. destruct (negb _); [apply wp_ret, YW_same, H04|].
  apply wp_bind. eapply wp_mono; [apply (wp_pres (YR k)), YR_eng, j_next|].
  intros [o|x|n] c5 H5; (assert (H05 : YR k c c5) by (eapply PO; [exact H04|exact H5])); [|apply YW_same, H05..].
  destruct o as [m|]; [|apply wp_ret, YW_same, H05].
  destruct (n_body m); try (apply wp_panic, YW_same, H05).
  apply wp_bind. apply (y_update k c); [exact H05|]. intros [u6|x|n] c6 H6; [|exact H6..].
  apply wp_intro. intros r s' Hr. eapply YW_after; [exact H6|]. eapply forall_pres_y; [|exact Hr].
  intro k1. pose proof (YR_po k1) as PO1. presauto PO1 ltac:(yleaf k1).
Qed.
Lemma y_half_closed_local_j k c : wp (y_half_closed_local E) (fun _ => YW k c) c.
Proof.
  pose proof (YR_po k) as PO. unfold y_half_closed_local. apply wp_bind, wp_get.
  apply wp_bind. eapply wp_mono with (P := fun _ => YW k c).
  - destruct (has_complete13 _ _); [|apply wp_ret, YW_same, PO].
    apply wp_bind. eapply wp_mono; [apply (wp_pres (YR k)), YR_eng, j_next|].
    intros [[m|]|x|n] c5 H5; [|apply wp_ret, YW_same, H5|apply YW_same, H5..].
    destruct (n_body m); try (apply wp_panic, YW_same, H5).
    apply wp_bind. apply (y_update k c); [exact H5|]. intros [u6|x|n] c6 H6; [|exact H6..].
    apply wp_intro. intros r s' Hr. eapply YW_after; [exact H6|]. eapply forall_pres_y; [|exact Hr].
    intro k1. apply YR_eng, j_adv.
  - intros [u|x|n] c1 H1; [|exact H1..]. apply wp_bind, wp_get. apply wp_ret. exact H1.
Qed.
Lemma y_J_step k c r c' : keyed_y (xs_state c) -> J k (xs_eng c) -> y_step E (xs_state c) c = (r, c') ->
  J (k + if rekeys_y (c, r, c') then 1 else 0) (xs_eng c') /\ xs_state c' = xs_state c /\
  match r with Ok st => keyed_y st | _ => True end.
Proof.
  intros HB HJ Hs.
  assert (W : YW k c c').
  { assert (K : wp (y_step E (xs_state c)) (fun _ => YW k c) c).
    { destruct (xs_state c) eqn:Hst; try contradiction HB;
        try (eapply wp_mono; [apply (y_step_early k); first [exact I|discriminate]|intros ? ? HH; apply YW_same, HH]).
      - apply y_await_application_data_j.
      - apply y_half_closed_local_j. }
    exact (wp_run _ _ _ _ _ Hs K). }
  destruct W as [W1 W2]. split; [exact (JS_end _ _ _ W1 HJ)|]. split; [exact W2|].
  pose proof (y_step_ret _ HB c) as K. rewrite Hs in K. exact K.
Qed.
Lemma J_run cs s : keyed13 s -> J 0 (end13_eng s) -> J (rekeys E cs s) (end13_eng (run13 E cs s)).
Proof.
  intros HB HJ. destruct s as [c|s].
  - pose proof (ix_trace E rekeys_x J keyed_x J_call I I x_J_step cs 0 c (conj HB HJ)) as [_ K].
    replace (run13 E cs (XC c)) with (XC (fold_left (fun c j => snd (client13_call E j c)) cs c)); [exact K|].
    clear. unfold run13. revert c. induction cs as [|j cs IH]; intro c; [reflexivity|]. cbn [fold_left]. rewrite IH. f_equal.
    cbn [end13_call]. destruct (client13_call E j c); reflexivity.
  - pose proof (iy_trace E rekeys_y J keyed_y J_call I I y_J_step cs 0 s (conj HB HJ)) as [_ K].
    replace (run13 E cs (XS s)) with (XS (fold_left (fun c j => snd (server13_call E j c)) cs s)); [exact K|].
    clear. unfold run13. revert s. induction cs as [|j cs IH]; intro s; [reflexivity|]. cbn [fold_left]. rewrite IH. f_equal.
    cbn [end13_call]. destruct (server13_call E j s); reflexivity.
Qed.
End Seen.

(** The receive epochs are 16 bits wide. *)
Definition epochs_ok (e : Eng13) : Prop := Forall (fun x => re_epoch x < 2 ^ 16) (g_recv e).
Lemma epochs_frame E : eng_frame13 E (fun a b => epochs_ok a -> epochs_ok b).
Proof.
  pose proof (preorder_inv epochs_ok) as PO.
  frame13_over ltac:(idtac; lazymatch goal with
    | |- pres _ (rec_parse13 _ _) => unfold rec_parse13;
        presauto PO ltac:(first [apply op_unmask; exact PO | apply op_suite_provider; exact PO
          | apply pres_modify; intros s H; unfold replay_update13; destruct (_ =? 2); [exact H|];
            unfold epochs_ok in *; cbn [g_recv set_g_recv];
            apply (Forall_map re_epoch (fun x => x < 2 ^ 16)); rewrite upd_epochs by reflexivity;
            apply (Forall_map re_epoch (fun x => x < 2 ^ 16)); exact H])
    | |- pres _ (install_application_keys _ _ _) => unfold install_application_keys, push_recv;
        presauto PO ltac:(first [apply op_derive_epoch_keys; exact PO
          | apply pres_modify; intros s H; first [exact H
              | unfold epochs_ok in *; cbn [g_recv set_g_recv]; apply Forall_app; split; [exact H|repeat constructor]]])
    | |- pres _ (update_recv_keys _) => unfold update_recv_keys, push_recv;
        presauto PO ltac:(first [apply op_derive_epoch_keys; exact PO | apply op_next_secret; exact PO
          | apply pres_modify; intros s H; first [exact H
              | unfold epochs_ok in *; cbn [g_recv set_g_recv]; apply Forall_app; split; [exact H|constructor; [apply N.mod_lt; discriminate|constructor]]
              | unfold epochs_ok in *; cbn [g_recv set_g_recv]; destruct H; [constructor|assumption]]])
    end) ltac:(first [exact PO | intros v s H; exact H | intros s H; exact H | intros; assumption]).
Qed.
Lemma reach_epochs E cfg cert key h s : reach13 E cfg cert key h s -> epochs_ok (end13_eng s).
Proof.
  apply eng13_inv; [apply epochs_frame| |].
  - intros e (b & n & ->). constructor.
  - intro f. constructor.
Qed.

Lemma upd_in q f l x : In x (upd_recv q f l) -> NoDup (map re_epoch l) -> (forall y, re_epoch (f y) = re_epoch y) -> re_epoch x = q ->
  exists y, find_recv q l = Some y /\ x = f y.
Proof.
  intros H N F Q. induction l as [|a l IH]; [contradiction H|]. cbn [upd_recv] in H. cbn [map] in N. apply NoDup_cons_iff in N as [N1 N2].
  unfold find_recv in *. cbn [find]. destruct (re_epoch a =? q) eqn:K.
  - destruct H as [H|H]; [exists a; auto|]. exfalso. apply N1. apply N.eqb_eq in K. rewrite K, <- Q. apply in_map, H.
  - destruct H as [H|H]; [subst; rewrite N.eqb_refl in K; discriminate|]. auto.
Qed.
Lemma find_recv_in q l y : find_recv q l = Some y -> In y l /\ re_epoch y = q.
Proof. intro H. apply find_some in H as [H K]. apply N.eqb_eq in K. auto. Qed.

(** Once a record of an application epoch was opened, no record with its number is
    opened again in that epoch, whatever is called in between.  The hypotheses: the
    application keys were installed ([keyed13]) and only once (each receive epoch
    occurs once), and the 16-bit epoch number does not come round to the record's
    epoch: from that epoch on there are fewer than 2^16 changes of the receive keys. *)
Theorem C03_application_once13_partial : forall E cfg cert key h1 s1 raw r e1 newest cs raw2 r2 e2,
  reach13 E cfg cert key h1 s1 -> keyed13 s1 ->
  NoDup (map re_epoch (g_recv (end13_eng s1))) -> last_epoch (end13_eng s1) = Some newest ->
  protected13 raw (end13_eng s1) -> rec_parse13 E raw (end13_eng s1) = (Ok (Some r), e1) -> r_epoch r <> 2 ->
  (newest + 2 ^ 16 - r_epoch r) mod 2 ^ 16 + rekeys E cs (set_end13_eng e1 s1) < 2 ^ 16 ->
  let s2 := run13 E cs (set_end13_eng e1 s1) in
  protected13 raw2 (end13_eng s2) -> rec_parse13 E raw2 (end13_eng s2) = (Ok (Some r2), e2) ->
  r_epoch r2 = r_epoch r -> r_seq r2 <> r_seq r.
Proof.
  intros E cfg cert key h1 s1 raw r e1 L cs raw2 r2 e2 HR HK ND HL P1 H1 E1 U s2 P2 H2 E2 Eq.
  destruct (rec_parse_opened _ _ _ _ _ P1 H1) as [C1 Ee]. destruct (rec_parse_opened _ _ _ _ _ P2 H2) as [C2 _].
  pose proof (reach_epochs _ _ _ _ _ _ HR) as EO. unfold epochs_ok in EO. rewrite Forall_forall in EO.
  assert (E1' : r_epoch r =? 2 = false) by (apply N.eqb_neq, E1).
  assert (Lb : L < 2 ^ 16).
  { unfold last_epoch in HL. destruct (rev (g_recv (end13_eng s1))) as [|x l] eqn:R; [discriminate|]. injection HL as <-.
    apply EO, in_rev. rewrite R. left; reflexivity. }
  unfold replay_check13 in C1, C2. rewrite E1' in C1. rewrite E2, E1' in C2.
  destruct (find_recv (r_epoch r) (g_recv (end13_eng s1))) as [x1|] eqn:F1; [|discriminate].
  destruct (find_recv (r_epoch r) (g_recv (end13_eng s2))) as [x2|] eqn:F2; [|discriminate].
  destruct (find_recv_in _ _ _ F1) as [I1 X1]. destruct (find_recv_in _ _ _ F2) as [I2 X2].
  assert (Eb : r_epoch r < 2 ^ 16) by (rewrite <- X1; apply EO, I1).
  set (s1' := set_end13_eng e1 s1) in *.
  assert (He : end13_eng s1' = e1) by (unfold s1'; destruct s1; reflexivity).
  assert (J0 : J L (r_epoch r) (r_seq r) 0 (end13_eng s1')).
  { rewrite He, Ee. intro U0. split.
    - rewrite N.add_0_r. unfold u16. rewrite N.mod_small by exact Lb. rewrite <- HL.
      unfold replay_update13. rewrite E1'. apply last_epoch_map. apply upd_epochs. reflexivity.
    - unfold app_seen, replay_update13. rewrite E1'. cbn [g_recv set_g_recv]. apply Forall_forall. intros x Hx Qx.
      destruct (upd_in _ _ _ _ Hx ND (fun _ => eq_refl) Qx) as (y & Hy & ->). rewrite F1 in Hy. injection Hy as <-.
      cbn [note_seq re_win]. apply window_marks, C1. }
  assert (HK' : keyed13 s1') by (unfold s1'; destruct s1; exact HK).
  pose proof (J_run E L (r_epoch r) (r_seq r) Lb Eb cs s1' HK' J0 U) as [_ S2].
  unfold app_seen in S2. rewrite Forall_forall in S2. specialize (S2 _ I2 X2). rewrite Eq in C2. congruence.
Qed.
Print Assumptions C03_application_once13_partial.

Definition polled (r : Reply) : bytes := match r with Ok (Some (OPacket p)) => p | _ => [] end.
(** The server's data, received by the client of the example run. *)
Definition srv_data : bytes := Eval vm_compute in
  polled (fst (end13_call toy2 (Poll 2000) (snd (end13_call toy2 (Send [1; 2; 3]) (snd xs_run))))).
Definition opens (p : bytes) (s : End13) : option (N * N * bytes) :=
  match fst (rec_parse13 toy p (end13_eng s)) with Ok (Some r) => Some (r_epoch r, r_seq r, r_frag r) | _ => None end.
Example C03_case :
  reach13 toy config_default [48; 7] (toy_key 7) (fst xc_run) (snd xc_run) /\ keyed13 (snd xc_run) /\
  map re_epoch (g_recv (end13_eng (snd xc_run))) = [3] /\ last_epoch (end13_eng (snd xc_run)) = Some 3 /\
  is_ct_header (hd 0 srv_data) = true /\ g_penc (end13_eng (snd xc_run)) = true /\
  opens srv_data (snd xc_run) = Some (3, 1, [1; 2; 3]) /\
  rekeys toy [Packet srv_data] (snd xc_run) = 0 /\
  opens srv_data (run13 toy [Packet srv_data] (snd xc_run)) = None.
Proof.
  split; [exact xc_run_reach|]. split; [vm_compute; exact I|]. do 6 (split; [vm_compute; reflexivity|]). vm_compute. reflexivity.
Qed.
