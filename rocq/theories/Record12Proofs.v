(** Facts about the DTLS 1.2 record and handshake-fragment codecs. *)
From Verif Require Import Prelude PreludeFacts Types Codec CodecProofs Codec12 Record12 Spec.
From Coq Require Import ZifyBool ZifyNat ZifyN.
Ltac Zify.zify_post_hook ::= Z.div_mod_to_equations.

Lemma be1 : forall n, be 1 n = [n mod 256].
Proof. reflexivity. Qed.
Lemma be2 : forall n, be 2 n = [n / 256 mod 256; n mod 256].
Proof. reflexivity. Qed.
Lemma be3 : forall n, be 3 n = [n / 256 / 256 mod 256; n / 256 mod 256; n mod 256].
Proof. reflexivity. Qed.
Lemma be6 : forall n, be 6 n =
  [n / 256 / 256 / 256 / 256 / 256 mod 256; n / 256 / 256 / 256 / 256 mod 256;
   n / 256 / 256 / 256 mod 256; n / 256 / 256 mod 256; n / 256 mod 256; n mod 256].
Proof. reflexivity. Qed.

(** ** Records *)

(** The fields [DTLSRecord::parse] returns. *)
Definition rec_fields (ct v ep sq : N) (frag : bytes) : Prop :=
  ct < 256 /\ v < 65536 /\ ep < 65536 /\ sq < 2^48 /\ len frag < 65536.

Lemma valid_header_b : forall ct v ep,
  valid_header12 ct v ep <->
  negb ((v =? V_DTLS10) || (v =? V_DTLS12)) = false /\
  (ep =? 0) && negb (memN ct [CT_CCS; CT_ALERT; CT_HS]) = false.
Proof.
  intros. unfold valid_header12, V_DTLS10, V_DTLS12, memN, CT_CCS, CT_ALERT, CT_HS. cbn [existsb]. lia.
Qed.

Lemma p_rec12_s : forall ct v ep sq frag rest,
  rec_fields ct v ep sq frag -> valid_header12 ct v ep ->
  p_rec12 0 (s_rec12 ct v ep sq frag ++ rest) = Some (ct, v, ep, sq, len frag, frag, rest).
Proof.
  intros ct v ep sq frag rest (H1 & H2 & H3 & H4 & H5) HV.
  apply valid_header_b in HV as [HV1 HV2].
  unfold p_rec12, s_rec12. rewrite <- !app_assoc.
  rewrite p_u8_app by assumption. rewrite p_u16_app by assumption. rewrite HV1.
  rewrite p_u16_app by assumption. rewrite HV2.
  rewrite p_u48_app by (cbn in *; lia). rewrite p_u16_app by assumption.
  cbn [skipn]. unfold len at 1. rewrite Nat2N.id, take_app. reflexivity.
Qed.

Lemma p_rec12_inv : forall l ct v ep sq n frag rest, bytes_ok l ->
  p_rec12 0 l = Some (ct, v, ep, sq, n, frag, rest) ->
  l = s_rec12 ct v ep sq frag ++ rest /\ n = len frag /\
  rec_fields ct v ep sq frag /\ valid_header12 ct v ep /\ bytes_ok frag /\ bytes_ok rest.
Proof.
  intros l ct v ep sq n frag rest H E. unfold p_rec12 in E.
  destruct (p_u8 l) as [[ct' l1]|] eqn:E1; [|discriminate].
  apply p_u8_inv in E1 as (-> & H1 & Hl1); auto.
  destruct (p_u16 l1) as [[v' l2]|] eqn:E2; [|discriminate].
  apply p_u16_inv in E2 as (-> & H2 & Hl2); auto.
  destruct (negb ((v' =? V_DTLS10) || (v' =? V_DTLS12))) eqn:V1; [discriminate|].
  destruct (p_u16 l2) as [[ep' l3]|] eqn:E3; [|discriminate].
  apply p_u16_inv in E3 as (-> & H3 & Hl3); auto.
  destruct ((ep' =? 0) && negb (memN ct' [CT_CCS; CT_ALERT; CT_HS])) eqn:V2; [discriminate|].
  destruct (p_u48 l3) as [[sq' l4]|] eqn:E4; [|discriminate].
  apply p_u48_inv in E4 as (-> & H4 & Hl4); auto.
  destruct (p_u16 l4) as [[n' l5]|] eqn:E5; [|discriminate].
  apply p_u16_inv in E5 as (-> & H5 & Hl5); auto.
  cbn [skipn] in E.
  destruct (take (N.to_nat n') l5) as [[fr rs]|] eqn:E6; [|discriminate].
  apply take_inv in E6 as (-> & HL & Hf & Hr); auto.
  inversion E; subst. assert (n = len frag) as -> by (unfold len; lia).
  unfold s_rec12. rewrite <- !app_assoc.
  split; [reflexivity|]. split; [reflexivity|]. split; [unfold rec_fields; cbn; lia|].
  split; [apply valid_header_b; auto|]. auto.
Qed.

(** The serializer writes the layout of the specification. *)
Lemma s_rec12_layout : forall ct v ep sq frag,
  rec_fields ct v ep sq frag -> is_record12 (s_rec12 ct v ep sq frag) ct v ep sq frag.
Proof.
  intros ct v ep sq frag (H1 & H2 & H3 & H4 & H5). unfold len in H5.
  unfold is_record12, s_rec12. rewrite be1, !be2, be6.
  do 12 eexists. split; [|].
  - cbn [app]. rewrite (N.mod_small ct 256) by assumption. reflexivity.
  - unfold len. cbn [N.pow Pos.pow Pos.iter Pos.mul] in *. repeat split; lia.
Qed.

Lemma unbe_cons_gen : forall l a, fold_left (fun acc b => acc * 256 + b) l a =
  a * 256 ^ N.of_nat (length l) + unbe l.
Proof.
  induction l as [|x l IH]; intros a; unfold unbe; cbn [fold_left length].
  - cbn. lia.
  - rewrite IH, (IH (0 * 256 + x)). rewrite pow256_S. lia.
Qed.

Lemma layout_s_rec12 : forall w ct v ep sq frag, bytes_ok w ->
  is_record12 w ct v ep sq frag -> w = s_rec12 ct v ep sq frag /\ rec_fields ct v ep sq frag.
Proof.
  intros w ct v ep sq frag Hok (v1 & v0 & e1 & e0 & s5 & s4 & s3 & s2 & s1 & s0 & l1 & l0 & -> & Hv & He & Hs & HL).
  apply bytes_ok_app in Hok as [Hok _]. rewrite !bytes_ok_cons in Hok.
  cbn [N.pow Pos.pow Pos.iter Pos.mul] in *. 
  destruct Hok as (? & ? & ? & ? & ? & ? & ? & ? & ? & ? & ? & ? & ? & _).
  unfold rec_fields, len. split; [|cbn [N.pow Pos.pow Pos.iter Pos.mul]; repeat split; lia].
  unfold s_rec12. rewrite be1, !be2, be6. unfold len. rewrite HL. cbn [app].
  repeat (f_equal; [lia|]). f_equal; lia.
Qed.

(** ** Handshake fragments *)
Definition frag_fields (t n s o : N) (d : bytes) : Prop :=
  t < 256 /\ n < 2^24 /\ s < 65536 /\ o < 2^24 /\ len d < 2^24.

Lemma p_frag12_s : forall t n s o d rest, frag_fields t n s o d ->
  p_frag12 (s_hs_header t n s o (len d) ++ d ++ rest) =
  Some (mkFrag t n s o (len d) d false, rest).
Proof.
  intros t n s o d rest (H1 & H2 & H3 & H4 & H5). cbn in H2, H4, H5.
  unfold p_frag12, s_hs_header. rewrite <- !app_assoc.
  rewrite p_u8_app, p_u24_app, p_u16_app, p_u24_app, p_u24_app by assumption.
  unfold len at 1. rewrite Nat2N.id, take_app. reflexivity.
Qed.

Lemma p_frag12_inv : forall l f rest, bytes_ok l -> p_frag12 l = Some (f, rest) ->
  l = s_hs_header (f_type f) (f_length f) (f_seq f) (f_off f) (len (f_data f)) ++ f_data f ++ rest /\
  f_flen f = len (f_data f) /\ f_handled f = false /\
  frag_fields (f_type f) (f_length f) (f_seq f) (f_off f) (f_data f) /\
  bytes_ok (f_data f) /\ bytes_ok rest.
Proof.
  intros l f rest H E. unfold p_frag12 in E.
  destruct (p_u8 l) as [[t l1]|] eqn:E1; [|discriminate].
  apply p_u8_inv in E1 as (-> & H1 & Hl1); auto.
  destruct (p_u24 l1) as [[n l2]|] eqn:E2; [|discriminate].
  apply p_u24_inv in E2 as (-> & H2 & Hl2); auto.
  destruct (p_u16 l2) as [[s l3]|] eqn:E3; [|discriminate].
  apply p_u16_inv in E3 as (-> & H3 & Hl3); auto.
  destruct (p_u24 l3) as [[o l4]|] eqn:E4; [|discriminate].
  apply p_u24_inv in E4 as (-> & H4 & Hl4); auto.
  destruct (p_u24 l4) as [[fl l5]|] eqn:E5; [|discriminate].
  apply p_u24_inv in E5 as (-> & H5 & Hl5); auto.
  destruct (take (N.to_nat fl) l5) as [[d rs]|] eqn:E6; [|discriminate].
  apply take_inv in E6 as (-> & HL & Hd & Hr); auto.
  inversion E; subst; clear E. cbn [f_type f_length f_seq f_off f_flen f_data f_handled].
  assert (fl = len d) as -> by (unfold len; lia).
  unfold s_hs_header. rewrite <- !app_assoc. repeat split; auto.
Qed.

Lemma s_frag_layout : forall t n s o d, frag_fields t n s o d ->
  is_fragment (s_hs_header t n s o (len d) ++ d) t n s o d.
Proof.
  intros t n s o d (H1 & H2 & H3 & H4 & H5). unfold len in H5.
  unfold is_fragment, s_hs_header. rewrite be1, be2, !be3.
  cbn [N.pow Pos.pow Pos.iter Pos.mul] in *.
  do 11 eexists. split.
  - cbn [app]. rewrite (N.mod_small t 256) by assumption. reflexivity.
  - unfold len. repeat split; lia.
Qed.

Lemma layout_s_frag : forall w t n s o d, bytes_ok w ->
  is_fragment w t n s o d -> w = s_hs_header t n s o (len d) ++ d /\ frag_fields t n s o d.
Proof.
  intros w t n s o d Hok (t2 & t1 & t0 & q1 & q0 & o2 & o1 & o0 & f2 & f1 & f0 & -> & Hv & He & Hs & HL).
  apply bytes_ok_app in Hok as [Hok _]. rewrite !bytes_ok_cons in Hok.
  cbn [N.pow Pos.pow Pos.iter Pos.mul] in *. 
  destruct Hok as (? & ? & ? & ? & ? & ? & ? & ? & ? & ? & ? & ? & _).
  unfold frag_fields, len. split; [|cbn [N.pow Pos.pow Pos.iter Pos.mul]; repeat split; lia].
  unfold s_hs_header. rewrite be1, be2, !be3. unfold len. rewrite HL. cbn [app].
  repeat (f_equal; [lia|]). f_equal; lia.
Qed.

Lemma p_frag12_progress : forall l f rest, p_frag12 l = Some (f, rest) ->
  (length rest + 12 <= length l)%nat.
Proof.
  intros l f rest E. unfold p_frag12, p_u8, p_u24, p_u16 in E.
  repeat match type of E with
  | context [match p_be ?k ?x with _ => _ end] =>
      let P := fresh "P" in destruct (p_be k x) as [[? ?]|] eqn:P; [|discriminate];
      apply p_be_some in P as (? & -> & ? & ?)
  | context [match take ?k ?x with _ => _ end] =>
      let P := fresh "P" in destruct (take k x) as [[? ?]|] eqn:P; [|discriminate];
      apply take_some in P as (-> & ?)
  end.
  inversion E; subst. rewrite !app_length. lia.
Qed.
