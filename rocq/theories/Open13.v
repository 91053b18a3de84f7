(** What a DTLS 1.3 endpoint reads from a datagram once the peer encrypts: every
    record it keeps was opened with one of its receive keys, or is a plaintext record
    of epoch 0. *)
From Verif Require Import Prelude PreludeFacts Types Codec Codec12 Codec13 Record12 Record13 Monad MonadFacts Timer Env Config Aead Engine12
  Engine13 Frame13 Open12 Rx13Proofs PropRx13.

(** A record of type [t] with this content, epoch and number is part of the datagram
    and opens under the receive key the endpoint holds for that epoch. *)
Definition opened13 (E : Env) (e : Eng13) (p : bytes) (t ep n : N) (content : bytes) : Prop :=
  exists pre raw post hdr k pt,
    p = pre ++ raw ++ post /\ recv_keys13 e ep = Some k /\ (length hdr <= length raw)%nat /\
    e_open E (ek_suite k) (ek_key k) (nonce_xor (ek_iv k) n) hdr (skipn (length hdr) raw) = Some pt /\
    inner_type pt = Some (t, content).

Lemma xor_seq_skipn n mask l k : (1 + n <= k)%nat -> (k <= length l)%nat ->
  skipn k (xor_seq n mask l) = skipn k l /\ length (xor_seq n mask l) = length l /\ hd 0 (xor_seq n mask l) = hd 0 l.
Proof.
  intros Hk Hl. destruct l as [|b r]; [cbn in Hl; lia|]. cbn [xor_seq]. destruct k as [|k]; [lia|].
  cbn [skipn length hd]. cbn [length] in Hl.
  assert (L : length (map (fun '(i, x) => N.lxor x (nth i mask 0)) (combine (seq 0 n) (firstn n r))) = n).
  { rewrite map_length, combine_length, seq_length, firstn_length. lia. }
  split; [|split; [|reflexivity]].
  - rewrite skipn_app, L. rewrite skipn_all2 by lia. cbn [app]. 
    assert (G : forall (a b : nat) (l : bytes), skipn a (skipn b l) = skipn (b + a) l).
    { intros a b0. induction b0 as [|b0 IH]; intro l; [reflexivity|]. destruct l; [cbn [skipn]; apply skipn_nil|].
      cbn [skipn Nat.add]. apply IH. }
    rewrite G. f_equal. lia.
  - rewrite app_length, L, skipn_length. lia.
Qed.

Lemma p_parsed13_ct buf r he : is_ct_header (hd 0 buf) = true -> p_parsed13 buf = Some (r, he) ->
  he = uhdr_len (hd 0 buf) /\ (he <= length buf)%nat.
Proof.
  intros Hc H. unfold p_parsed13, p_rec13 in H. destruct buf as [|b l]; [discriminate|]. cbn [hd] in *. rewrite Hc in H.
  unfold p_cipher13, p_u8, p_u16 in H.
  destruct (p_be 1 (b :: l)) as [[b' l1]|] eqn:H1; [|discriminate].
  destruct (p_be_spec _ _ _ _ H1) as (-> & -> & _). replace (unbe (firstn 1 (b :: l))) with b in H by (cbn [unbe fold_left firstn]; unfold unbe; cbn [fold_left]; lia).
  cbn [skipn] in H. destruct (flag_c b); [discriminate|]. destruct (p_be (seq_len b) l) as [[q l2]|] eqn:H2; [|discriminate].
  destruct (p_be_spec _ _ _ _ H2) as (_ & -> & L2). destruct (flag_l b) eqn:Hfl.
  - destruct (p_be 2 _) as [[n l3]|] eqn:H3; [|discriminate]. destruct (p_be_spec _ _ _ _ H3) as (_ & -> & L3).
    rewrite skipn_length in L3. destruct (take _ _) as [[f rest]|]; [|discriminate]. cbn [d_start] in H.
    injection H as _ <-. unfold uhdr_len, len_len. rewrite Hfl. cbn [length]. lia.
  - destruct (take _ _) as [[f rest]|]; [|discriminate]. cbn [d_start] in H.
    injection H as _ <-. unfold uhdr_len, len_len. rewrite Hfl. cbn [length]. lia.
Qed.

(** The receive keys and whether the peer encrypts. *)
Definition same_keys13 (a b : Eng13) : Prop := g_penc b = g_penc a /\ forall ep, recv_keys13 b ep = recv_keys13 a ep.
Lemma same_keys13_po : preorder same_keys13.
Proof.
  split; [intro; split; reflexivity|]. intros a b c [A1 A2] [B1 B2]. split; [congruence|]. intro ep. rewrite B2. apply A2.
Qed.
Lemma find_upd_recv ep ep' n l :
  match find_recv ep' (upd_recv ep (note_seq n) l) with Some e => Some (re_keys e) | None => None end =
  match find_recv ep' l with Some e => Some (re_keys e) | None => None end.
Proof.
  unfold find_recv. induction l as [|x l IH]; [reflexivity|]. cbn [upd_recv]. destruct (re_epoch x =? ep).
  - cbn [find re_epoch note_seq]. destruct (re_epoch x =? ep'); [reflexivity|]. reflexivity.
  - cbn [find]. destruct (re_epoch x =? ep'); [reflexivity|]. exact IH.
Qed.
Lemma same_keys_replay ep n e : same_keys13 e (replay_update13 ep n e).
Proof.
  unfold replay_update13. destruct (ep =? 2); (split; [reflexivity|]).
  - intro ep'. reflexivity.
  - intro ep'. unfold recv_keys13. cbn [g_hs_recv g_recv set_g_recv]. destruct (ep' =? 2); [reflexivity|]. apply find_upd_recv.
Qed.
Lemma same_keys_rec_parse E raw : pres same_keys13 (rec_parse13 E raw).
Proof.
  unfold rec_parse13, unmask13, suite_provider13. presauto same_keys13_po ltac:(first [apply pres_modify; intro; apply same_keys_replay]).
Qed.

Lemma rec_parse_opens E raw e r e' : protected13 raw e -> rec_parse13 E raw e = (Ok (Some r), e') ->
  exists hdr k pt, recv_keys13 e (r_epoch r) = Some k /\ (length hdr <= length raw)%nat /\
    e_open E (ek_suite k) (ek_key k) (nonce_xor (ek_iv k) (r_seq r)) hdr (skipn (length hdr) raw) = Some pt /\
    inner_type pt = Some (r_ctype r, r_frag r).
Proof.
  intros [Hc Hp] H.
  assert (W : wp (rec_parse13 E raw) (fun o e' => match o with Ok (Some r) =>
    exists hdr k pt, recv_keys13 e (r_epoch r) = Some k /\ (length hdr <= length raw)%nat /\
    e_open E (ek_suite k) (ek_key k) (nonce_xor (ek_iv k) (r_seq r)) hdr (skipn (length hdr) raw) = Some pt /\
    inner_type pt = Some (r_ctype r, r_frag r) | _ => True end) e).
  { unfold rec_parse13. rewrite Hc. apply wp_bind, wp_get. rewrite Hp. cbn [andb negb orb]. apply wp_bind.
    eapply wp_mono with (P := fun (o : res bytes) e1 => e1 = e /\ match o with Ok buf =>
      hd 0 buf = hd 0 raw /\ length buf = length raw /\
      skipn (uhdr_len (hd 0 raw)) buf = skipn (uhdr_len (hd 0 raw)) raw | _ => True end).
    { unfold unmask13, suite_provider13. wps; try (split; [reflexivity|exact Logic.I]);
        split; try reflexivity; try (split; [reflexivity|split; reflexivity]).
      match goal with H : Nat.leb _ _ = true |- _ => apply Nat.leb_le in H; rename H into Hl end.
      match goal with |- context [xor_seq _ ?m _] =>
        destruct (xor_seq_skipn (seq_len (hd 0 raw)) m raw (uhdr_len (hd 0 raw))) as (A1 & A2 & A3); [unfold uhdr_len; lia|lia|] end.
      auto. }
    intros [buf|x|n] e1 [-> HB]; [|exact I..]. destruct HB as (B1 & B2 & B3).
    destruct (p_parsed13 buf) as [[r0 he]|] eqn:HP; [|apply wp_ret; exact I].
    destruct (p_parsed13_ct _ _ _ ltac:(rewrite B1; exact Hc) HP) as [Hhe Hle]. rewrite B1 in Hhe.
    set (ep := resolve_epoch e (r_epoch r0)). set (sq := resolve_sequence e ep (r_seq r0) (flag_s (hd 0 raw))).
    destruct (replay_check13 e ep sq) eqn:Hr; cbn [negb]; [|apply wp_ret; exact I].
    apply wp_bind. eapply wp_mono with (P := fun o e1 => e1 = e).
    { unfold suite_provider13. wps; reflexivity. }
    intros [i|x|n] e1 ->; [|exact I..]. destruct (Nat.ltb _ _); [apply wp_ret; exact I|].
    destruct (recv_keys13 e ep) as [k|] eqn:HK; [|apply wp_ret; exact I].
    destruct (e_open _ _ _ _ _ _) as [pt|] eqn:HO; [|apply wp_ret; exact I].
    apply wp_bind, wp_modify. destruct (inner_type pt) as [[t content]|] eqn:HI; apply wp_ret; [|exact I].
    exists (firstn he buf), k, pt. unfold rec13_of. cbn [r_epoch r_seq r_ctype r_frag].
    rewrite firstn_length, Nat.min_l by exact Hle. subst he. rewrite B3 in HO. repeat split; try assumption. lia. }
  unfold wp in W. rewrite H in W. exact W.
Qed.

Lemma rec_parse_plain E raw e r e' : is_ct_header (hd 0 raw) = false -> rec_parse13 E raw e = (Ok (Some r), e') -> r_epoch r = 0.
Proof.
  intros Hc H. unfold rec_parse13, bind, get in H. rewrite Hc in H. cbn [andb negb orb] in H. unfold ret in H.
  unfold p_parsed13, p_rec13 in H. destruct raw as [|b l]; [discriminate|]. cbn [hd] in Hc. rewrite Hc in H.
  unfold p_plain13 in H.
  destruct (p_u8 (b :: l)) as [[ct l1]|]; [|discriminate]. destruct (negb (memN ct _)); [discriminate|].
  destruct (p_u16 l1) as [[v l2]|]; [|discriminate]. destruct (negb (_ || _)); [discriminate|].
  destruct (p_u16 l2) as [[ep l3]|]; [|discriminate]. destruct (ep =? 0) eqn:He; [|discriminate]. cbn [negb] in H.
  destruct (p_u48 l3) as [[sq l4]|]; [|discriminate]. destruct (p_u16 l4) as [[n l5]|]; [|discriminate].
  destruct (take _ _) as [[fr rest]|]; [|discriminate]. injection H as <- _. apply N.eqb_eq in He. exact He.
Qed.

(** Every record kept from a datagram was opened or has epoch 0. *)
Lemma parse_loop_opened E p : forall fuel room q pre e,
  g_penc e = true -> p = pre ++ q ->
  wp (parse_loop13 E fuel room q) (fun o _ => match o with Ok rs =>
    Forall (fun r => r_epoch r = 0 \/ opened13 E e p (r_ctype r) (r_epoch r) (r_seq r) (r_frag r)) rs | _ => True end) e.
Proof.
  induction fuel as [|fuel IH]; intros room q pre e Hp HE; destruct q as [|b q]; cbn [parse_loop13];
    try (apply wp_ret; constructor); try exact I.
  destruct (rec_bound13 (b :: q)) as [| |n]; [apply wp_ret; constructor|exact I|].
  set (w := b :: q) in *.
  assert (Sp : w = firstn n w ++ skipn n w) by (symmetry; apply firstn_skipn).
  apply wp_bind. unfold wp at 1. destruct (rec_parse13 E (firstn n w) e) as [[o|x|x] e1] eqn:HR; cbn [fst snd]; [|exact I..].
  pose proof (same_keys_rec_parse E (firstn n w) e) as SK. rewrite HR in SK. cbn [snd] in SK. destruct SK as [SK1 SK2].
  assert (Tr : forall r, r_epoch r = 0 \/ opened13 E e1 p (r_ctype r) (r_epoch r) (r_seq r) (r_frag r) ->
     r_epoch r = 0 \/ opened13 E e p (r_ctype r) (r_epoch r) (r_seq r) (r_frag r)).
  { intros r [A|A]; [left; exact A|right]. destruct A as (pr & ra & po & hd_ & k & pt & A1 & A2 & A3). 
    exists pr, ra, po, hd_, k, pt. rewrite <- SK2. auto. }
  assert (HE' : p = (pre ++ firstn n w) ++ skipn n w) by (rewrite <- app_assoc, <- Sp; exact HE).
  assert (Rest : forall room', wp (parse_loop13 E fuel room' (skipn n w)) (fun o _ => match o with Ok rs =>
     Forall (fun r => r_epoch r = 0 \/ opened13 E e p (r_ctype r) (r_epoch r) (r_seq r) (r_frag r)) rs | _ => True end) e1).
  { intro room'. eapply wp_mono; [apply (IH room' _ _ e1 ltac:(congruence) HE')|].
    intros [rs|x|x] e2; [|trivial..]. intro F. eapply Forall_impl; [|exact F]. exact Tr. }
  destruct o as [r|].
  - destruct room as [|room]; [exact I|]. apply wp_bind. eapply wp_mono; [apply Rest|].
    intros [rs|x|x] e2; [|trivial..]. intro F. apply wp_ret. constructor; [|exact F].
    destruct (is_ct_header (hd 0 (firstn n w))) eqn:Hc.
    + right. destruct (rec_parse_opens _ _ _ _ _ (conj Hc Hp) HR) as (h & k & pt & K1 & K2 & K3 & K4).
      exists pre, (firstn n w), (skipn n w), h, k, pt. rewrite HE. rewrite <- Sp. auto.
    + left. exact (rec_parse_plain _ _ _ _ _ Hc HR).
  - apply Rest.
Qed.
