(** Proofs about datagrams none of whose records authenticates, on a DTLS 1.3 endpoint
    whose peer encrypts. *)
From Verif Require Import Prelude PreludeFacts Types Codec Codec12 Codec13 Record12 Record13 Monad MonadFacts Timer Env Config Aead Engine12 Client12
  Engine13 Client13 Server13 Context12 History12 History12Facts History13 Frame13 Lift13 Index13 Lift12 Trace13 Trace13Proofs Out13 Rx13Proofs PropRx13 Open13 Poll13Proofs Fin13 Est13 Alert13 Close13.

(** The record [raw] opens under some receive key and some number, with some header. *)
Definition authentic13 (E : Env) (e : Eng13) (raw : bytes) : Prop :=
  exists ep n hdr k pt, recv_keys13 e ep = Some k /\ (length hdr <= length raw)%nat /\
    e_open E (ek_suite k) (ek_key k) (nonce_xor (ek_iv k) n) hdr (skipn (length hdr) raw) = Some pt.
Definition suite_known (E : Env) (e : Eng13) : Prop := exists cs i, g_suite e = Some cs /\ find13 E cs = Some i.

Lemma wp_provider E e i (Q : res Suite13Info -> Eng13 -> Prop) cs : g_suite e = Some cs -> find13 E cs = Some i -> Q (Ok i) e -> wp (suite_provider13 E) Q e.
Proof. intros H1 H2 HQ. unfold suite_provider13. apply wp_bind, wp_get. rewrite H1, H2. apply wp_ret, HQ. Qed.

Lemma rec_garbage E raw e : g_penc e = true -> suite_known E e -> ~ authentic13 E e raw ->
  wp (rec_parse13 E raw) (fun o e' => e' = e /\ match o with
    | Ok (Some r) => is_ct_header (hd 0 raw) = false /\ r_epoch r = 0 /\ r_ctype r = hd 0 raw /\ memN (hd 0 raw) [CT_ALERT; CT_HS; CT_ACK] = true
    | Ok None => True | _ => False end) e.
Proof.
  intros Hp (cs & i & Hs & Hf) NA. unfold rec_parse13. apply wp_bind, wp_get. rewrite Hp. rewrite andb_true_r, orb_false_r.
  destruct (is_ct_header (hd 0 raw)) eqn:Hc; cbn [negb].
  - apply wp_bind.
    eapply wp_mono with (P := fun (o : res bytes) e1 => e1 = e /\ match o with Ok buf =>
      hd 0 buf = hd 0 raw /\ length buf = length raw /\
      skipn (uhdr_len (hd 0 raw)) buf = skipn (uhdr_len (hd 0 raw)) raw | _ => False end).
    { unfold unmask13. apply wp_bind, wp_get. destruct (Nat.leb _ _) eqn:Hl; [|apply wp_ret; auto].
      destruct (recv_keys13 _ _); [|apply wp_ret; auto]. apply wp_bind. apply (wp_provider E e i _ cs Hs Hf). apply wp_ret.
      apply Nat.leb_le in Hl. split; [reflexivity|].
      match goal with |- context [xor_seq _ ?m _] =>
        destruct (xor_seq_skipn (seq_len (hd 0 raw)) m raw (uhdr_len (hd 0 raw))) as (A1 & A2 & A3); [unfold uhdr_len; lia|lia|] end.
      auto. }
    intros [buf|x|n] e1 [-> HB]; [|contradiction..]. destruct HB as (B1 & B2 & B3).
    destruct (p_parsed13 buf) as [[r0 he]|] eqn:HP; [|apply wp_ret; auto].
    destruct (p_parsed13_ct _ _ _ ltac:(rewrite B1; exact Hc) HP) as [Hhe Hle]. rewrite B1 in Hhe.
    set (ep := resolve_epoch e (r_epoch r0)). set (sq := resolve_sequence e ep (r_seq r0) (flag_s (hd 0 raw))).
    destruct (replay_check13 e ep sq) eqn:Hr; cbn [negb]; [|apply wp_ret; auto].
    apply wp_bind. apply (wp_provider E e i _ cs Hs Hf). destruct (Nat.ltb _ _); [apply wp_ret; auto|].
    destruct (recv_keys13 e ep) as [k|] eqn:HK; [|apply wp_ret; auto].
    destruct (e_open _ _ _ _ _ _) as [pt|] eqn:HO; [|apply wp_ret; auto].
    exfalso. apply NA. exists ep, sq, (firstn he buf), k, pt. rewrite firstn_length, Nat.min_l by exact Hle. subst he. rewrite B3 in HO.
    split; [exact HK|]. split; [lia|exact HO].
  - apply wp_bind, wp_ret. destruct (p_parsed13 raw) as [[r he]|] eqn:P; [|apply wp_ret; auto]. apply wp_ret. split; [reflexivity|]. split; [reflexivity|].
    unfold p_parsed13, p_rec13 in P. destruct raw as [|b l]; [discriminate|]. cbn [hd] in *. rewrite Hc in P.
    unfold p_plain13 in P.
    destruct (p_u8 (b :: l)) as [[ct l1]|] eqn:H8; [|discriminate].
    assert (ct = b). { unfold p_u8, p_be, take in H8. cbn [length Nat.leb firstn skipn] in H8. unfold unbe in H8. cbn [fold_left] in H8. injection H8 as H8 _. lia. }
    subst ct. destruct (memN b _) eqn:Hm; [|discriminate]. cbn [negb] in P.
    destruct (p_u16 l1) as [[v l2]|]; [|discriminate]. destruct (negb (_ || _)); [discriminate|].
    destruct (p_u16 l2) as [[ep l3]|]; [|discriminate]. destruct (ep =? 0) eqn:He; [|discriminate]. cbn [negb] in P.
    destruct (p_u48 l3) as [[sq l4]|]; [|discriminate]. destruct (p_u16 l4) as [[n l5]|]; [|discriminate].
    destruct (take _ _) as [[fr rest]|]; [|discriminate]. injection P as <- _. apply N.eqb_eq in He. split; [exact He|]. split; [reflexivity|].
    first [exact Hm | reflexivity].
Qed.
Lemma bound_pos p n : rec_bound13 p = BRec n -> (1 <= n)%nat.
Proof.
  unfold rec_bound13, uhdr_len. intros H. repeat match type of H with context [if ?b then _ else _] => destruct b eqn:? end; try discriminate; injection H as <-; lia.
Qed.
Lemma loop_garbage E e : g_penc e = true -> suite_known E e -> forall fuel room q, (length q <= fuel)%nat ->
  (forall raw, In raw (cut13 fuel q) -> ~ authentic13 E e raw) -> (forall raw, In raw (cut13 fuel q) -> hd 0 raw <> CT_HS) ->
  wp (parse_loop13 E fuel room q) (fun o e' => e' = e /\ match o with
    | Ok rs => Forall (fun r => r_epoch r = 0 /\ (r_ctype r = CT_ALERT \/ r_ctype r = CT_ACK)) rs
    | Err x => x = ETransient | Panic _ => False end) e.
Proof.
  intros Hp Hs. induction fuel as [|fuel IH]; intros room q L NA NH; destruct q as [|b q]; cbn [parse_loop13];
    try (apply wp_ret; split; [reflexivity|constructor]); [cbn in L; lia|].
  cbn [cut13] in NA, NH. destruct (rec_bound13 (b :: q)) as [| |n] eqn:Hb; [apply wp_ret; split; [reflexivity|constructor]|split; reflexivity|].
  set (w := b :: q) in *. pose proof (bound_pos _ _ Hb) as Hn.
  assert (Rest : forall room', wp (parse_loop13 E fuel room' (skipn n w)) (fun o e' => e' = e /\ match o with
    | Ok rs => Forall (fun r => r_epoch r = 0 /\ (r_ctype r = CT_ALERT \/ r_ctype r = CT_ACK)) rs
    | Err x => x = ETransient | Panic _ => False end) e).
  { intro room'. apply IH; [rewrite skipn_length; lia|intros raw H; apply NA; right; exact H|intros raw H; apply NH; right; exact H]. }
  apply wp_bind. eapply wp_mono; [apply (rec_garbage E (firstn n w) e Hp Hs); apply NA; left; reflexivity|].
  intros [o|x|x] e1 [-> HO]; [|contradiction..].
  destruct o as [r|]; [|apply Rest].
  destruct room as [|room]; [split; reflexivity|]. apply wp_bind. eapply wp_mono; [apply Rest|].
  intros [rs|x|x] e2 [-> HR]; [|split; [reflexivity|exact HR]..]. apply wp_ret. split; [reflexivity|]. constructor; [|exact HR].
  destruct HO as (_ & O1 & O2 & O3). split; [exact O1|]. pose proof (NH (firstn n w) (or_introl eq_refl)) as NH1. rewrite O2.
  revert O3 NH1. generalize (hd 0 (firstn n w)). intros c O3 NH1. unfold memN, existsb in O3. rewrite !orb_true_iff, !N.eqb_eq in O3. intuition discriminate.
Qed.
Lemma classify_garbage E e : g_penc e = true -> forall rs, Forall (fun r => r_epoch r = 0 /\ (r_ctype r = CT_ALERT \/ r_ctype r = CT_ACK)) rs ->
  classify_all13 E rs e = (Ok [], e).
Proof.
  intros Hp. induction rs as [|r rs IH]; intros F; [reflexivity|]. inversion F as [|? ? F1 F2]; subst. cbn [classify_all13]. unfold bind.
  assert (K : classify_record13 E r e = (Ok None, e)).
  { destruct F1 as [F0 F1]. unfold classify_record13, bind, get. destruct (match g_cn e with Some _ => _ | None => _ end); [reflexivity|].
    rewrite F0, Hp. cbn [N.eqb andb]. replace ((r_ctype r =? CT_ACK) || (r_ctype r =? CT_ALERT)) with true; [reflexivity|].
    destruct F1 as [-> | ->]; reflexivity. }
  rewrite K, (IH F2). reflexivity.
Qed.
Theorem parse_garbage13 E e p : g_penc e = true -> suite_known E e ->
  (forall raw, In raw (records13 p) -> ~ authentic13 E e raw) -> (forall raw, In raw (records13 p) -> hd 0 raw <> CT_HS) ->
  eng13_parse_packet E p e = (Ok tt, e) \/ eng13_parse_packet E p e = (Err ETransient, e).
Proof.
  intros Hp Hs NA NH. pose proof (loop_garbage E e Hp Hs (length p) 16 p (Nat.le_refl _) NA NH) as W. unfold wp in W.
  unfold eng13_parse_packet, records_parse13. unfold bind at 1, bind at 1. unfold bind.
  destruct (parse_loop13 E (length p) 16 p e) as [[rs|x|x] e1]; cbn [fst snd] in W; destruct W as [-> W]; [|subst x; right; reflexivity|contradiction].
  rewrite (classify_garbage E e Hp rs W). left. reflexivity.
Qed.
Lemma packet_transient E p s : fin13 s = true -> eng13_parse_packet E p (end13_eng s) = (Err ETransient, end13_eng s) ->
  end13_call E (Packet p) s = (Ok None, s).
Proof.
  intros F H. destruct s as [c|c]; cbn [end13_call end13_eng fin13] in *.
  - enough (client13_call E (Packet p) c = (Ok None, c)) as -> by reflexivity. cbn [client13_call].
    unfold no_output, client13_handle_packet, bind, public, bind, xeng, zoom. rewrite H. destruct c; reflexivity.
  - enough (server13_call E (Packet p) c = (Ok None, c)) as -> by reflexivity. cbn [server13_call].
    assert (NA : sstate13_eqb (xs_state c) ST_AwaitClientHello = false) by (destruct (xs_state c); [discriminate F|reflexivity..]).
    unfold no_output, bind. unfold server13_handle_packet, bind, get. rewrite NA, !andb_false_r.
    unfold public, y_process, bind, yeng, zoom. rewrite H. destruct c; reflexivity.
Qed.
