(** Facts about the DTLS 1.3 record codecs. *)
From Verif Require Import Prelude PreludeFacts Types Codec CodecProofs Codec12 Codec13 Record12
  Record12Proofs Record13 Spec Spec13.
From Coq Require Import ZifyBool ZifyNat ZifyN.
Ltac Zify.zify_post_hook ::= Z.div_mod_to_equations.

(** ** Finite case analysis on a byte *)
Lemma byte_cases : forall P : N -> bool, forallb P (map N.of_nat (List.seq 0 256)) = true ->
  forall b, b < 256 -> P b = true.
Proof.
  intros P H b Hb. rewrite forallb_forall in H. apply H. apply in_map_iff.
  exists (N.to_nat b). split; [lia|]. apply in_seq. lia.
Qed.

Lemma first_byte : forall (s l : bool) ep, ep < 4 ->
  let b := 2^5 + (if s then 2^3 else 0) + (if l then 2^2 else 0) + ep in
  is_ct_header b = true /\ flag_c b = false /\ flag_s b = s /\ flag_l b = l /\ N.land b 3 = ep.
Proof.
  intros s l ep H. assert (ep = 0 \/ ep = 1 \/ ep = 2 \/ ep = 3) as [->|[->|[->| ->]]] by lia;
    destruct s, l; repeat split; reflexivity.
Qed.

Lemma first_byte_inv : forall b, b < 256 -> is_ct_header b = true -> flag_c b = false ->
  b = 2^5 + (if flag_s b then 2^3 else 0) + (if flag_l b then 2^2 else 0) + N.land b 3 /\
  N.land b 3 < 4.
Proof.
  intros b Hb H1 H2.
  set (P := fun b => implb (is_ct_header b && negb (flag_c b))
     ((b =? 2^5 + (if flag_s b then 2^3 else 0) + (if flag_l b then 2^2 else 0) + N.land b 3) &&
      (N.land b 3 <? 4))).
  assert (P b = true) as HP by (apply byte_cases; [vm_compute; reflexivity|assumption]).
  unfold P in HP. rewrite H1, H2 in HP. cbn [implb negb andb] in HP. lia.
Qed.

(** ** Ciphertext records *)
Lemma p_rec13_unified : forall w s l ep sq frag rest, bytes_ok w ->
  is_unified w s l ep sq frag -> (l = false -> rest = [] /\ len frag < 65536) ->
  p_rec13 (w ++ rest) =
  Some (mkHdr13 CT_APP ep sq (len frag) (1 + (if s then 2 else 1) + (if l then 2 else 0)) frag, rest).
Proof.
  intros w s l ep sq frag rest Hok (num & lf & -> & Hep & Hn & Hl) Hnl.
  destruct (first_byte s l ep Hep) as (B1 & B2 & B3 & B4 & B5).
  set (b := 2^5 + (if s then 2^3 else 0) + (if l then 2^2 else 0) + ep) in *.
  rewrite !bytes_ok_cons in Hok. destruct Hok as [Hb Hok].
  apply bytes_ok_app in Hok as [Hnum Hok]. apply bytes_ok_app in Hok as [Hlf Hfr].
  cbn [app]. unfold p_rec13. rewrite B1. unfold p_cipher13.
  replace (b :: (num ++ lf ++ frag) ++ rest) with (be 1 b ++ (num ++ lf ++ frag) ++ rest)
    by (rewrite be1, N.mod_small by assumption; reflexivity).
  rewrite p_u8_app by assumption. rewrite B2.
  rewrite <- !app_assoc.
  assert (p_be (seq_len b) (num ++ lf ++ frag ++ rest) = Some (sq, lf ++ frag ++ rest)) as ->.
  { unfold seq_len. rewrite B3. destruct s.
    - destruct Hn as (q1 & q0 & -> & ->). rewrite !bytes_ok_cons in Hnum.
      replace [q1; q0] with (be 2 (q1 * 2^8 + q0)).
      + apply p_u16_app. cbn in *; lia.
      + rewrite be2. cbn [N.pow Pos.pow Pos.iter Pos.mul]. f_equal; [|f_equal]; lia.
    - subst num. rewrite !bytes_ok_cons in Hnum.
      replace [sq] with (be 1 sq) by (rewrite be1, N.mod_small by lia; reflexivity).
      apply p_u8_app. lia. }
  unfold uhdr_len, seq_len, len_len. rewrite B3, B4, B5. destruct l.
  - destruct Hl as (l1 & l0 & -> & HL). rewrite !bytes_ok_cons in Hlf.
    replace [l1; l0] with (be 2 (len frag)).
    + rewrite p_u16_app by (unfold len; cbn in *; lia). unfold len at 1.
      rewrite Nat2N.id, take_app. reflexivity.
    + rewrite be2. unfold len. rewrite HL. cbn [N.pow Pos.pow Pos.iter Pos.mul].
      f_equal; [|f_equal]; lia.
  - destruct (Hnl eq_refl) as [-> HL]. subst lf. cbn [app].
    replace (u16 (len (frag ++ []))) with (len frag)
      by (rewrite app_nil_r; unfold u16; rewrite N.mod_small; [reflexivity|exact HL]).
    unfold len at 1. rewrite Nat2N.id, take_app. reflexivity.
Qed.

Lemma s_cipher13_layout : forall ep sq frag, len frag < 65536 ->
  is_unified (s_cipher13 ep sq frag) true true (ep mod 2^2) (sq mod 2^16) frag.
Proof.
  intros ep sq frag HL. unfold s_cipher13, s_uhdr13.
  exists (be 2 sq), (be 2 (len frag)). split; [|split; [|split]].
  - cbn [app]. rewrite <- app_assoc. f_equal.
    replace (N.land ep 3) with (ep mod 2^2)
      by (change 3 with (N.ones 2); rewrite N.land_ones; reflexivity).
    assert (ep mod 2^2 < 4) by (apply N.mod_lt; discriminate).
    set (e := ep mod 2^2) in *.
    assert (e = 0 \/ e = 1 \/ e = 2 \/ e = 3) as [->|[->|[->| ->]]] by lia; reflexivity.
  - apply N.mod_lt. discriminate.
  - rewrite be2. do 2 eexists. split; [reflexivity|]. cbn [N.pow Pos.pow Pos.iter Pos.mul]. lia.
  - rewrite be2. do 2 eexists. split; [reflexivity|]. unfold len in *.
    cbn [N.pow Pos.pow Pos.iter Pos.mul]. lia.
Qed.

Lemma s_cipher13_ok : forall ep sq frag, bytes_ok frag -> bytes_ok (s_cipher13 ep sq frag).
Proof.
  intros. unfold s_cipher13, s_uhdr13. apply bytes_ok_app; split; [|assumption].
  apply bytes_ok_cons; split; [|apply bytes_ok_app; split; apply be_ok].
  assert (N.land ep 3 < 4)
    by (change 3 with (N.ones 2); rewrite N.land_ones; apply N.mod_lt; discriminate).
  set (e := N.land ep 3) in *.
  assert (e = 0 \/ e = 1 \/ e = 2 \/ e = 3) as [->|[->|[->| ->]]] by lia; reflexivity.
Qed.

(** ** Plaintext records *)
Lemma p_plain13_s : forall w ct v ep sq frag rest, bytes_ok w ->
  is_record12 w ct v ep sq frag -> valid_plain13 ct v ep ->
  p_rec13 (w ++ rest) = Some (mkHdr13 ct 0 sq (len frag) 13 frag, rest).
Proof.
  intros w ct v ep sq frag rest Hok HL (HV & -> & HC).
  apply layout_s_rec12 in HL as [-> (H1 & H2 & H3 & H4 & H5)]; auto.
  assert (exists t, s_rec12 ct v 0 sq frag ++ rest = ct :: t) as (t & Ht).
  { unfold s_rec12. rewrite be1. cbn [app]. rewrite N.mod_small by assumption. eauto. }
  unfold p_rec13. rewrite Ht.
  replace (is_ct_header ct) with false by (destruct HC as [->|[->| ->]]; reflexivity).
  rewrite <- Ht. unfold p_plain13, s_rec12. rewrite <- !app_assoc.
  rewrite p_u8_app by assumption.
  replace (negb (memN ct [CT_ALERT; CT_HS; CT_ACK])) with false
    by (destruct HC as [->|[->| ->]]; reflexivity).
  rewrite p_u16_app by assumption.
  replace (negb ((v =? V_DTLS10) || (v =? V_DTLS12))) with false
    by (unfold V_DTLS10, V_DTLS12; lia).
  rewrite p_u16_app by assumption. cbn [N.eqb negb].
  rewrite p_u48_app by (cbn in *; lia). rewrite p_u16_app by assumption.
  unfold len at 1. rewrite Nat2N.id, take_app. reflexivity.
Qed.

Lemma s_plain13_layout : forall ct ep sq frag, ct < 256 -> ep < 65536 -> sq < 2^48 ->
  len frag < 65536 -> is_record12 (s_plain13 ct ep sq frag) ct 65277 ep sq frag.
Proof.
  intros. change (s_plain13 ct ep sq frag) with (s_rec12 ct 65277 ep sq frag).
  apply s_rec12_layout. unfold rec_fields. repeat split; auto.
Qed.

(** ** Soundness of the parser *)
Lemma p_rec13_inv : forall l h rest, bytes_ok l -> p_rec13 l = Some (h, rest) ->
  (exists w v, l = w ++ rest /\ is_record12 w (d_ctype h) v (d_epoch h) (d_seq h) (d_frag h) /\
     valid_plain13 (d_ctype h) v (d_epoch h) /\ d_length h = len (d_frag h) /\ d_start h = 13%nat) \/
  (exists w s b, l = w ++ rest /\ is_unified w s b (d_epoch h) (d_seq h) (d_frag h) /\
     d_ctype h = CT_APP /\ d_length h = len (d_frag h) /\
     d_start h = (length w - length (d_frag h))%nat /\
     (b = false -> len (d_frag h) = len (d_frag h ++ rest) mod 2^16)).
Proof.
  intros l h rest Hok E. unfold p_rec13 in E. destruct l as [|b l]; [discriminate|].
  destruct (is_ct_header b) eqn:Eb.
  - right. unfold p_cipher13 in E.
    destruct (p_u8 (b :: l)) as [[b' l1]|] eqn:E1; [|discriminate].
    apply p_u8_inv in E1 as (EE & H1 & Hl1); auto.
    rewrite be1, N.mod_small in EE by assumption. cbn [app] in EE. inversion EE; subst b' l1; clear EE.
    destruct (flag_c b) eqn:Ec; [discriminate|].
    destruct (first_byte_inv b H1 Eb Ec) as [Hb H3].
    destruct (p_be (seq_len b) l) as [[sq l2]|] eqn:E2; [|discriminate].
    assert (exists num, l = num ++ l2 /\ length num = seq_len b /\ bytes_ok l2 /\
      (if flag_s b then exists q1 q0, num = [q1; q0] /\ sq = q1 * 2^8 + q0 else num = [sq]))
      as (num & -> & HLn & Hl2 & Hn).
    { unfold seq_len in *. destruct (flag_s b).
      - apply p_u16_inv in E2 as (-> & H2 & Hl2); auto. eexists. split; [reflexivity|].
        rewrite be2. split; [reflexivity|]. split; [assumption|]. do 2 eexists. split; [reflexivity|].
        cbn [N.pow Pos.pow Pos.iter Pos.mul]. lia.
      - apply p_u8_inv in E2 as (-> & H2 & Hl2); auto. eexists. split; [reflexivity|].
        rewrite be1. split; [reflexivity|]. split; [assumption|]. rewrite N.mod_small by assumption.
        reflexivity. }
    destruct (flag_l b) eqn:El.
    + destruct (p_u16 l2) as [[n l3]|] eqn:E3; [|discriminate].
      apply p_u16_inv in E3 as (-> & H4 & Hl3); auto.
      destruct (take (N.to_nat n) l3) as [[fr rs]|] eqn:E4; [|discriminate].
      apply take_inv in E4 as (-> & HL & Hf & Hr); auto.
      inversion E; subst; clear E. cbn [d_ctype d_epoch d_seq d_frag d_length d_start].
      assert (n = len fr) as -> by (unfold len; lia).
      exists (b :: num ++ be 2 (len fr) ++ fr), (flag_s b), true.
      split; [cbn [app]; rewrite <- !app_assoc; reflexivity|]. split; [|].
      { exists num, (be 2 (len fr)). split; [rewrite <- Hb; reflexivity|].
        split; [assumption|]. split; [assumption|]. rewrite be2. do 2 eexists.
        split; [reflexivity|]. unfold len in *. cbn [N.pow Pos.pow Pos.iter Pos.mul]. lia. }
      split; [reflexivity|]. split; [reflexivity|]. split; [|discriminate].
      unfold uhdr_len, len_len. rewrite El. cbn [length]. rewrite !app_length, be_length, HLn. lia.
    + destruct (take (N.to_nat (u16 (len l2))) l2) as [[fr rs]|] eqn:E4; [|discriminate].
      apply take_inv in E4 as (-> & HL & Hf & Hr); auto.
      inversion E; subst; clear E. cbn [d_ctype d_epoch d_seq d_frag d_length d_start].
      exists (b :: num ++ [] ++ fr), (flag_s b), false.
      split; [cbn [app]; rewrite <- !app_assoc; reflexivity|]. split; [|].
      { exists num, []. split; [rewrite <- Hb; reflexivity|]. auto. }
      split; [reflexivity|]. unfold u16 in *. change (2^16) with 65536 in *.
      split; [unfold len in *; lia|]. split; [|intros _; unfold len in *; lia].
      unfold uhdr_len, len_len. rewrite El. cbn [length app]. rewrite !app_length, HLn. lia.
  - left. unfold p_plain13 in E.
    destruct (p_u8 (b :: l)) as [[ct l1]|] eqn:E1; [|discriminate].
    apply p_u8_inv in E1 as (EE & H1 & Hl1); auto. rewrite EE. clear EE Eb.
    destruct (negb (memN ct [CT_ALERT; CT_HS; CT_ACK])) eqn:V0; [discriminate|].
    destruct (p_u16 l1) as [[v l2]|] eqn:E2; [|discriminate].
    apply p_u16_inv in E2 as (-> & H2 & Hl2); auto.
    destruct (negb ((v =? V_DTLS10) || (v =? V_DTLS12))) eqn:V1; [discriminate|].
    destruct (p_u16 l2) as [[ep l3]|] eqn:E3; [|discriminate].
    apply p_u16_inv in E3 as (-> & H3 & Hl3); auto.
    destruct (negb (ep =? 0)) eqn:V2; [discriminate|].
    destruct (p_u48 l3) as [[sq l4]|] eqn:E4; [|discriminate].
    apply p_u48_inv in E4 as (-> & H4 & Hl4); auto.
    destruct (p_u16 l4) as [[n l5]|] eqn:E5; [|discriminate].
    apply p_u16_inv in E5 as (-> & H5 & Hl5); auto.
    destruct (take (N.to_nat n) l5) as [[fr rs]|] eqn:E6; [|discriminate].
    apply take_inv in E6 as (-> & HL & Hf & Hr); auto.
    inversion E; subst; clear E. cbn [d_ctype d_epoch d_seq d_frag d_length d_start].
    assert (n = len fr) as -> by (unfold len; lia).
    exists (s_rec12 ct v ep sq fr), v.
    split; [unfold s_rec12; rewrite <- !app_assoc; reflexivity|].
    split; [apply s_rec12_layout; unfold rec_fields; cbn; auto|].
    split; [|auto]. unfold valid_plain13.
    unfold memN, CT_ALERT, CT_HS, CT_ACK, V_DTLS10, V_DTLS12 in *. cbn [existsb] in V0. lia.
Qed.

(** The connection-id bit is refused. *)
Lemma p_rec13_cid : forall b r, 48 <= b < 64 -> p_rec13 (b :: r) = None.
Proof.
  intros b r H.
  assert (b < 256) as Hb by lia.
  assert (is_ct_header b = true /\ flag_c b = true) as [H1 H2].
  { set (P := fun b => implb ((48 <=? b) && (b <? 64)) (is_ct_header b && flag_c b)).
    assert (P b = true) as HP by (apply byte_cases; [vm_compute; reflexivity|assumption]).
    unfold P in HP. replace ((48 <=? b) && (b <? 64)) with true in HP by lia.
    cbn [implb] in HP. apply andb_prop in HP. tauto. }
  unfold p_rec13. rewrite H1. unfold p_cipher13.
  replace (b :: r) with (be 1 b ++ r) by (rewrite be1, N.mod_small by assumption; reflexivity).
  rewrite p_u8_app by assumption. rewrite H2. reflexivity.
Qed.

(** ** Inner content type *)
Lemma inner_type_zeros : forall n, inner_type (repeat 0 n) = None.
Proof. induction n; cbn; [reflexivity|]. rewrite IHn. reflexivity. Qed.

Lemma inner_type_s : forall c t n, t <> 0 -> inner_type (c ++ t :: repeat 0 n) = Some (t, c).
Proof.
  induction c as [|x c IH]; intros t n H; cbn [app inner_type].
  - rewrite inner_type_zeros. destruct (N.eqb_spec t 0); congruence.
  - rewrite IH by assumption. reflexivity.
Qed.

Lemma inner_type_none : forall l, inner_type l = None -> l = repeat 0 (length l).
Proof.
  induction l as [|x l IH]; cbn [inner_type length repeat]; intros H; [reflexivity|].
  destruct (inner_type l) as [[t c]|]; [discriminate|].
  destruct (N.eqb_spec x 0); [|discriminate]. subst. rewrite <- IH; auto.
Qed.

Lemma inner_type_some : forall l t c, inner_type l = Some (t, c) ->
  t <> 0 /\ exists n, l = c ++ t :: repeat 0 n.
Proof.
  induction l as [|x l IH]; cbn [inner_type]; intros t c H; [discriminate|].
  destruct (inner_type l) as [[t' c']|] eqn:E.
  - inversion H; subst. destruct (IH _ _ eq_refl) as (H1 & n & ->). split; [assumption|]. exists n. reflexivity.
  - destruct (N.eqb_spec x 0); [discriminate|]. inversion H; subst. split; [assumption|].
    exists (length l). cbn [app]. f_equal. apply inner_type_none, E.
Qed.

(** ** ACK bodies *)
Lemma value_unbe : forall l, value l = unbe l.
Proof.
  induction l as [|x l IH]; [reflexivity|]. cbn [value]. rewrite IH. unfold unbe at 2. cbn [fold_left].
  rewrite unbe_cons_gen. lia.
Qed.

Lemma ack_body_length : forall es,
  length (flat_map (fun e : N * N => be 8 (fst e) ++ be 8 (snd e)) es) = (16 * length es)%nat.
Proof.
  induction es as [|e es IH]; [reflexivity|]. cbn [flat_map length].
  rewrite app_length, IH, app_length, !be_length. lia.
Qed.

Lemma p_ack_layout : forall l es fuel, ack_list l es -> (length l <= fuel)%nat ->
  p_ack_entries fuel l = es.
Proof.
  intros l es fuel H. revert fuel. induction H as [|eb qb l es H1 H2 H3 IH]; intros fuel HF.
  - destruct fuel as [|f]; reflexivity.
  - rewrite !app_length in HF. destruct fuel as [|f]; [lia|]. cbn [p_ack_entries].
    do 8 (destruct eb as [|? eb]; [discriminate H1|]). destruct eb; [|discriminate H1].
    do 8 (destruct qb as [|? qb]; [discriminate H2|]). destruct qb; [|discriminate H2].
    cbn [app firstn skipn]. rewrite !value_unbe. f_equal. apply IH. cbn [length] in HF. lia.
Qed.

Lemma ack_list_len : forall l es, ack_list l es -> length l = (16 * length es)%nat.
Proof. induction 1; cbn [length]; rewrite ?app_length; lia. Qed.

Lemma ack_list_exists : forall n l, length l = (16 * n)%nat -> exists es, ack_list l es.
Proof.
  induction n as [|n IH]; intros l H.
  - destruct l; [|cbn in H; lia]. eexists; constructor.
  - assert (l = firstn 8 l ++ firstn 8 (skipn 8 l) ++ skipn 8 (skipn 8 l)) as ->
      by (rewrite !firstn_skipn; reflexivity).
    destruct (IH (skipn 8 (skipn 8 l))) as (es & Hes); [rewrite !skipn_length; lia|].
    eexists. constructor; [rewrite firstn_length; lia|rewrite firstn_length, skipn_length; lia|exact Hes].
Qed.

Lemma p_ack_complete : forall w es, bytes_ok w -> is_ack w es -> p_ack w = Some es.
Proof.
  intros w es Hok (l1 & l0 & body & -> & HL & HA). rewrite !bytes_ok_cons in Hok.
  destruct Hok as (B1 & B0 & Hok). unfold p_ack.
  replace (l1 :: l0 :: body) with (be 2 (len body) ++ body).
  2:{ rewrite be2. cbn [app]. unfold len. rewrite HL. cbn [N.pow Pos.pow Pos.iter Pos.mul].
      f_equal; [lia|f_equal; lia]. }
  rewrite p_u16_app by (unfold len; rewrite HL; cbn in *; lia).
  rewrite N.eqb_refl. pose proof (ack_list_len _ _ HA) as HL2.
  replace (len body mod 16 =? 0) with true by (unfold len; rewrite HL2; lia).
  cbn [negb orb]. f_equal. apply p_ack_layout; auto.
Qed.

Lemma p_ack_sound : forall w es, bytes_ok w -> p_ack w = Some es -> is_ack w es.
Proof.
  intros w es Hok E. unfold p_ack in E.
  destruct (p_u16 w) as [[n r]|] eqn:E1; [|discriminate].
  apply p_u16_inv in E1 as (-> & H1 & Hr); auto.
  destruct (negb (len r =? n) || negb (n mod 16 =? 0)) eqn:E2; [discriminate|].
  assert (len r = n) as <- by lia.
  destruct (ack_list_exists (length r / 16)%nat r) as (es' & HA); [unfold len in *; lia|].
  inversion E; subst; clear E. rewrite (p_ack_layout _ _ _ HA) by lia.
  rewrite be2. cbn [app]. do 3 eexists. split; [reflexivity|]. split; [|exact HA].
  unfold len in *. cbn [N.pow Pos.pow Pos.iter Pos.mul]. lia.
Qed.

Lemma s_ack_layout : forall es, Forall (fun e => fst e < 2^64 /\ snd e < 2^64) es ->
  16 * len es < 65536 -> is_ack (s_ack es) es.
Proof.
  intros es H HL. unfold s_ack. rewrite be2. cbn [app]. do 3 eexists. split; [reflexivity|].
  rewrite ack_body_length. split; [unfold len in *; cbn [N.pow Pos.pow Pos.iter Pos.mul]; lia|].
  clear HL. induction H as [|[e q] es [He Hq] Hes IH]; cbn [flat_map]; [constructor|].
  rewrite <- app_assoc. cbn [fst snd] in *.
  replace (e, q) with (value (be 8 e), value (be 8 q)).
  - constructor; auto using be_length.
  - rewrite !value_unbe, !unbe_be, !N.mod_small; auto.
Qed.

Lemma s_ack_ok : forall es, bytes_ok (s_ack es).
Proof.
  intros. unfold s_ack. apply bytes_ok_app; split; [apply be_ok|].
  induction es; cbn [flat_map]; [constructor|]. apply bytes_ok_app; split; auto.
  apply bytes_ok_app; split; apply be_ok.
Qed.
