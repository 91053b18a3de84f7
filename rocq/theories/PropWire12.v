(** C14, C27, C42 and C43 for DTLS 1.2: what an endpoint puts on the wire.

    Vocabulary: [reach12 E cfg auth h s]: the endpoint (client or server) is in
    state [s] after the calls and replies [h].  [packets_of (outputs h)] are the
    datagrams it handed out, in order; [en_tx (end_eng s)] those it still has to
    hand out.  [encode r] is the encoding of record [r] (RFC 6347 4.1).
    [writes h]: the data of the [send_application_data] calls that returned Ok.
    [was_connected h s]: Connected was reported in [h] or is waiting to be polled. *)
From Coq Require Import Sorted.
From Verif Require Import Prelude PreludeFacts Types Codec Codec12 Env Config Context12 Monad MonadFacts
  Record12 Record12Proofs Timer Engine12 Client12 Server12 Toy History12 Conn12 View12 Send12Proofs Poll12Proofs Events12
  EndFrame12 ClientInv12 ClientStep12 ServerInv12 ServerStep12 Timer12Proofs Wait12Proofs Tx12Proofs Ledger12 Frag12Proofs Runs12 Spec.

(** ** C14: record numbers *)

(** The bytes of a DTLS 1.2 record with its epoch and sequence number, by position. *)
Definition record_numbered (w : bytes) (ep seq : N) : Prop :=
  exists ct e1 e0 s5 s4 s3 s2 s1 s0 l1 l0 frag,
    w = [ct; 254; 253; e1; e0; s5; s4; s3; s2; s1; s0; l1; l0] ++ frag /\
    Forall (fun b => b < 256) [e1; e0; s5; s4; s3; s2; s1; s0; l1; l0] /\
    ep = e1 * 2^8 + e0 /\
    seq = s5 * 2^40 + s4 * 2^32 + s3 * 2^24 + s2 * 2^16 + s1 * 2^8 + s0 /\
    len frag mod 2^16 = l1 * 2^8 + l0.

Lemma record_numbered_fun w ep seq ep' seq' :
  record_numbered w ep seq -> record_numbered w ep' seq' -> ep = ep' /\ seq = seq'.
Proof.
  intros (ct & e1 & e0 & s5 & s4 & s3 & s2 & s1 & s0 & l1 & l0 & f & -> & _ & -> & -> & _)
         (ct' & e1' & e0' & s5' & s4' & s3' & s2' & s1' & s0' & l1' & l0' & f' & E & _ & -> & -> & _).
  cbn [app] in E. injection E. intros. subst. auto.
Qed.

Lemma encode_numbered r : sr_epoch r < 2^16 -> sr_seq r < 2^48 -> record_numbered (encode r) (sr_epoch r) (sr_seq r).
Proof.
  intros H0 H1. unfold encode, record_numbered.
  exists (sr_type r mod 256), (sr_epoch r / 256 mod 256), (sr_epoch r mod 256).
  exists (sr_seq r / 256 / 256 / 256 / 256 / 256 mod 256), (sr_seq r / 256 / 256 / 256 / 256 mod 256), (sr_seq r / 256 / 256 / 256 mod 256),
    (sr_seq r / 256 / 256 mod 256), (sr_seq r / 256 mod 256), (sr_seq r mod 256).
  exists (len (sr_wire r) / 256 mod 256), (len (sr_wire r) mod 256), (sr_wire r).
  split; [reflexivity|]. split; [repeat constructor; apply N.mod_lt; lia|].
  set (x := sr_epoch r) in *. set (y := sr_seq r) in *. set (z := len (sr_wire r)) in *. clearbody x y z.
  split; [|split]; [| |].
  - Z.div_mod_to_equations. lia.
  - clear - H1. 
    assert (D : forall n, n = 256 * (n / 256) + n mod 256) by (intro n; apply N.div_mod'; lia).
    pose proof (D y). pose proof (D (y/256)). pose proof (D (y/256/256)). pose proof (D (y/256/256/256)). pose proof (D (y/256/256/256/256)).
    assert (y/256/256/256/256/256 < 256).
    { rewrite !N.div_div by lia. apply N.div_lt_upper_bound; lia. }
    rewrite (N.mod_small (y/256/256/256/256/256)) by assumption. lia.
  - change (2^16) with (256 * 256). rewrite N.mod_mul_r by lia. lia.
Qed.

Lemma increasing_at rs ep i j a b : increasing (numbers ep rs) -> (i < j)%nat ->
  nth_error rs i = Some a -> nth_error rs j = Some b -> sr_epoch a = ep -> sr_epoch b = ep -> sr_seq a < sr_seq b.
Proof.
  revert i j. induction rs as [|r rs IH]; intros i j H L A B Ea Eb; [destruct i; discriminate|].
  destruct j as [|j]; [lia|]. cbn [nth_error] in B.
  destruct i as [|i]; cbn [nth_error] in A.
  - injection A as <-. unfold numbers in H. cbn [filter] in H. rewrite Ea, N.eqb_refl in H. cbn [map] in H.
    inversion H as [|x l H1 H2 X]. subst. rewrite Forall_forall in H2. apply H2.
    apply in_map_iff. exists b. split; [reflexivity|]. apply filter_In. split; [eapply nth_error_In; exact B|]. apply N.eqb_eq. exact Eb.
  - apply (IH i j); auto; [|lia]. unfold numbers in *. cbn [filter] in H. destruct (sr_epoch r =? ep); [|exact H].
    cbn [map] in H. inversion H; assumption.
Qed.

Lemma nth_error_map_inv {A B} (f : A -> B) l : forall i y, nth_error (map f l) i = Some y -> exists x, nth_error l i = Some x /\ f x = y.
Proof.
  induction l as [|a l IH]; intros [|i] y H; cbn in H; try discriminate.
  - injection H as <-. exists a. auto.
  - apply IH. exact H.
Qed.

(** Everything handed out so far is a sequence of records, and of two records of
    one epoch the later one has the larger sequence number, whatever was
    retransmitted in between, while fewer than 2^48 numbers were used. *)
Theorem C14_record_numbers_increase12 : forall E cfg auth h s,
  reach12 E cfg auth h s ->
  en_seq0 (end_eng s) <= 2^48 -> en_seqn (end_eng s) <= 2^48 ->
  exists rss : list (list bytes),
    packets_of (outputs h) = map (@concat N) rss /\
    Forall (fun w => exists ep seq, record_numbered w ep seq) (concat rss) /\
    forall i j w w' ep seq seq', (i < j)%nat ->
      nth_error (concat rss) i = Some w -> nth_error (concat rss) j = Some w' ->
      record_numbered w ep seq -> record_numbered w' ep seq' -> seq < seq'.
Proof.
  intros E cfg auth h s HR L0 L1. destruct (reach_numbered E cfg auth h s HR) as (rss & H1 & H2 & H3).
  assert (HB : forall r, In r (concat rss) -> sr_epoch r < 2^16 /\ sr_seq r < 2^48).
  { intros r Hr. rewrite Forall_forall in H2. split; [destruct (H2 r Hr) as [-> | ->]; lia|].
    destruct (H3 (sr_epoch r)) as [_ K]. rewrite Forall_forall in K.
    assert (sr_seq r < next_number (sr_epoch r) (end_eng s)).
    { apply K. apply in_map_iff. exists r. split; [reflexivity|]. apply filter_In. split; [exact Hr|apply N.eqb_refl]. }
    unfold next_number in H. destruct (_ =? 0); lia. }
  set (n := length (packets_of (outputs h))).
  assert (Hp : packets_of (outputs h) = map (flat_map encode) (firstn n rss)).
  { rewrite <- firstn_map, H1. unfold n. rewrite firstn_app, firstn_all, Nat.sub_diag. cbn. rewrite app_nil_r. reflexivity. }
  exists (map (map encode) (firstn n rss)).
  assert (Hc : concat (map (map encode) (firstn n rss)) = map encode (concat (firstn n rss))) by (symmetry; apply concat_map).
  assert (Hin : forall r, In r (concat (firstn n rss)) -> In r (concat rss)).
  { intros r Hr. rewrite <- (firstn_skipn n rss), concat_app. apply in_or_app. left. exact Hr. }
  split; [|split].
  - rewrite Hp, map_map. apply map_ext. intro l. apply flat_map_concat_map.
  - rewrite Hc. apply Forall_forall. intros w Hw. apply in_map_iff in Hw. destruct Hw as (r & <- & Hr).
    exists (sr_epoch r), (sr_seq r). destruct (HB r (Hin r Hr)). apply encode_numbered; assumption.
  - rewrite Hc. intros i j w w' ep seq seq' Hij Hi Hj N1 N2.
    apply nth_error_map_inv in Hi. apply nth_error_map_inv in Hj. destruct Hi as (a & Hi & <-). destruct Hj as (b & Hj & <-).
    destruct (HB a (Hin a (nth_error_In _ _ Hi))) as [A1 A2]. destruct (HB b (Hin b (nth_error_In _ _ Hj))) as [B1 B2].
    destruct (record_numbered_fun _ _ _ _ _ N1 (encode_numbered a A1 A2)) as [Xa ->].
    destruct (record_numbered_fun _ _ _ _ _ N2 (encode_numbered b B1 B2)) as [Xb ->].
    apply (increasing_at (concat rss) ep i j); auto.
    + apply H3.
    + rewrite <- (firstn_skipn n rss), concat_app. rewrite nth_error_app1; [exact Hi|]. apply nth_error_Some. congruence.
    + rewrite <- (firstn_skipn n rss), concat_app. rewrite nth_error_app1; [exact Hj|]. apply nth_error_Some. congruence.
Qed.
Print Assumptions C14_record_numbers_increase12.

Example C14_case : reach12 toy config_default (toy_auth 7) (fst cl_run) (snd cl_run) /\
  en_seq0 (end_eng (snd cl_run)) = 6 /\ en_seqn (end_eng (snd cl_run)) = 1 /\
  map (fun p => firstn 11 p) (packets_of (outputs (fst cl_run))) =
    [[22; 254; 253; 0; 0; 0; 0; 0; 0; 0; 0]; [22; 254; 253; 0; 0; 0; 0; 0; 0; 0; 1]; [22; 254; 253; 0; 0; 0; 0; 0; 0; 0; 2]].
Proof. split; [exact cl_run_reach|]. vm_compute. repeat split. Qed.

(** ** C27: retransmission *)

(** A waiting endpoint whose retransmission deadline has passed resends its flight:
    the saved records, in order, with their types, epochs and contents, under the
    next record numbers (by C14 not used before); what was still queued of the
    handshake is replaced.  If the send queue overflows a prefix is resent. *)
Theorem C27_resend12 : forall E cfg auth h s f now r s',
  reach12 E cfg auth h s -> waiting E s -> jitter_ok E -> 0 < c_hs_timeout cfg ->
  match en_connect (end_eng s) with Armed c => now < c | _ => True end ->
  en_flight (end_eng s) = Armed f -> f <= now -> resent s < c_retries cfg ->
  end12_call E (Tick now) s = (r, s') ->
  exists sent rest rs,
    en_saved (end_eng s) = sent ++ rest /\ (r = Ok None -> rest = []) /\
    sent_all E (end_eng s) (en_seq0 (end_eng s)) (en_seqn (end_eng s)) sent rs /\
    concat (en_tx (end_eng s')) = (if en_release (end_eng s) then concat (en_tx (end_eng s)) else []) ++ flat_map encode rs /\
    en_saved (end_eng s') = en_saved (end_eng s).
Proof.
  intros E cfg auth h s f now r s' HR W J T C F L K H.
  pose proof (waiting_tick E cfg auth h s now HR W J C T r s' H) as Q. rewrite F in Q.
  replace (now <? f) with false in Q by lia. replace (resent s <? c_retries cfg) with true in Q by lia.
  destruct Q as (_ & _ & _ & _ & x & Hx & X1 & X2 & X3 & X4 & X5 & X6 & X7 & X8).
  destruct (flight_resend_spec E x _ _ Hx) as (rs & ks1 & ks2 & R1 & R2 & R3 & R4 & R5).
  exists ks1, ks2, rs. rewrite <- X1, <- X2, <- X3, <- X4, <- X5. split; [exact R1|].
  split; [intros ->; apply R5; reflexivity|]. split; [|split; [exact R3|exact R4]].
  eapply sent_all_keys; [|exact R2]. repeat split; assumption.
Qed.
Print Assumptions C27_resend12.

(** What is saved for retransmission is what was sent: [create_handshake] adds the
    same types, epochs and contents to the saved flight and, as records, to the
    send queue. *)
Theorem C27_saved_is_sent12 : forall E mt body e e',
  25 + prot_of (mt12_epoch mt) e < c_mtu (en_cfg e) ->
  create_handshake E mt (ret body) e = (Ok tt, e') ->
  exists ks rs, en_saved e' = en_saved e ++ ks /\ ks <> [] /\
    sent_all E e (en_seq0 e) (en_seqn e) ks rs /\
    concat (en_tx e') = concat (en_tx e) ++ flat_map encode rs.
Proof.
  intros E mt body e e' Hm H.
  pose proof (create_handshake_spec E mt (ret body) body e e eq_refl Hm) as W. unfold wp in W. rewrite H in W.
  destruct W as (_ & _ & cs & rs & W1 & _ & W3 & W4 & W5). eexists _, rs. split; [exact W4|]. split; [|split; [exact W3|exact W5]].
  destruct W1 as [W1 W2]. destruct cs; [|discriminate]. cbn in W1. subst body. discriminate.
Qed.
Print Assumptions C27_saved_is_sent12.

(** A new flight forgets the previous one: after [flight_begin], which every flight
    starts with, only the records of the new messages are retransmitted. *)
Theorem C27_new_flight12 : forall E mt body e e',
  25 + prot_of (mt12_epoch mt) e < c_mtu (en_cfg e) ->
  (flight_begin E ;;; create_handshake E mt (ret body)) e = (Ok tt, e') ->
  exists cs, concat cs = body /\ en_saved e' = map (fun f => (CT_HS, mt12_epoch mt, f)) (pieces mt (u32 (len body)) (en_next_hs e) 0 cs).
Proof.
  intros E mt body e e' Hm H. unfold bind in H. destruct (flight_begin E e) as [r e1] eqn:Hf.
  assert (K : r = Ok tt /\ en_saved e1 = [] /\ en_cfg e1 = en_cfg e /\ en_next_hs e1 = en_next_hs e /\
              prot_of (mt12_epoch mt) e1 = prot_of (mt12_epoch mt) e).
  { unfold flight_begin, draw, bind, get, modify, ret in Hf. injection Hf as <- <-. repeat split. }
  destruct K as (-> & K1 & K2 & K3 & K4).
  assert (Hm1 : 25 + prot_of (mt12_epoch mt) e1 < c_mtu (en_cfg e1)) by (rewrite K2, K4; exact Hm).
  pose proof (create_handshake_spec E mt (ret body) body e1 e1 eq_refl Hm1) as W. unfold wp in W. rewrite H in W.
  cbn [fst snd] in W. destruct W as (_ & _ & cs & rs & [W1 _] & _ & _ & W4 & _).
  exists cs. rewrite K1, K3 in W4. split; [exact W1|exact W4].
Qed.
Print Assumptions C27_new_flight12.

(** The client of [C24_case] resends its ClientHello. *)
Example C27_case : let s := end_eng (snd (replay toy [Tick 5; Tick 10] (new_client toy config_default (toy_auth 7) 0))) in
  let s' := end_eng (snd (replay toy [Tick 5; Tick 10; Poll 3000; Tick (10 + 1000000000)] (new_client toy config_default (toy_auth 7) 0))) in
  en_flight s = Armed (10 + 1000000000) /\ len (en_saved s) = 1 /\ map len (en_tx s) = [122] /\ map len (en_tx s') = [122] /\
  map (fun p => firstn 11 p) (en_tx s ++ en_tx s') = [[22; 254; 253; 0; 0; 0; 0; 0; 0; 0; 0]; [22; 254; 253; 0; 0; 0; 0; 0; 0; 0; 1]] /\
  map (skipn 11) (en_tx s) = map (skipn 11) (en_tx s').
Proof. vm_compute. repeat split. Qed.

(** ** C09: fragmentation *)

(** The fragments [cs] of a message, each as it is on the wire: type, length and
    number of the message and the offset are the expected ones. *)
Definition covers (mt total seq : N) (cs frags : list bytes) : Prop :=
  length frags = length cs /\
  forall i c f, nth_error cs i = Some c -> nth_error frags i = Some f ->
    is_fragment f mt total seq (len (concat (firstn i cs))) c.

Lemma pieces_cover mt total seq : mt < 256 -> total < 2^24 -> seq < 2^16 ->
  forall cs off, off + len (concat cs) <= total ->
  length (pieces mt total seq off cs) = length cs /\
  forall i c f, nth_error cs i = Some c -> nth_error (pieces mt total seq off cs) i = Some f ->
    is_fragment f mt total seq (off + len (concat (firstn i cs))) c.
Proof.
  intros Hm Ht Hs. induction cs as [|c0 cs IH]; intros off Ho; cbn [pieces].
  - split; [reflexivity|]. intros [|i]; discriminate.
  - cbn [concat] in Ho. rewrite len_app in Ho. destruct (IH (off + len c0)) as [I1 I2]; [lia|].
    split; [cbn [length]; congruence|]. intros [|i] c f; cbn [nth_error firstn concat].
    + intros [= <-] [= <-]. change (len (@nil N)) with 0. rewrite N.add_0_r. apply s_frag_layout. unfold frag_fields. repeat split; lia.
    + intros A B. rewrite len_app, N.add_assoc. apply I2; assumption.
Qed.

Theorem C09_fragments_cover12 : forall E mt body e r e',
  mt < 256 -> len body < 2^24 -> en_next_hs e < 2^16 ->
  25 + prot_of (mt12_epoch mt) e < c_mtu (en_cfg e) ->
  create_handshake E mt (ret body) e = (r, e') ->
  match r with
  | Ok _ =>
    exists cs frags rs,
      concat cs = body /\ (body <> [] -> Forall (fun c => c <> []) cs) /\ cs <> [] /\
      covers mt (len body) (en_next_hs e) cs frags /\
      Forall (fun f => 13 + len f + prot_of (mt12_epoch mt) e <= c_mtu (en_cfg e)) frags /\
      sent_all E e (en_seq0 e) (en_seqn e) (map (fun f => (CT_HS, mt12_epoch mt, f)) frags) rs /\
      concat (en_tx e') = concat (en_tx e) ++ flat_map encode rs
  | Err x => x = EInvalidState \/ x = ETxFull \/ x = ECrypto
  | Panic n => n = 800
  end.
Proof.
  intros E mt body e r e' Ht Hl Hn Hm H.
  pose proof (create_handshake_spec E mt (ret body) body e e eq_refl Hm) as W. unfold wp in W. rewrite H in W.
  destruct W as (_ & _ & W). destruct r as [u|x|n]; [|exact W..].
  destruct W as (cs & rs & [W1 W2] & W3 & W4 & W5 & W6).
  assert (Hu : u32 (len body) = len body) by (unfold u32; apply N.mod_small; lia). cbn [fst snd] in *. rewrite Hu in *.
  exists cs, (pieces mt (len body) (en_next_hs e) 0 cs), rs.
  destruct (pieces_cover mt (len body) (en_next_hs e) Ht Hl Hn cs 0) as [P1 P2]; [rewrite W1; lia|].
  split; [exact W1|]. split; [intro X; destruct body; [contradiction|exact W2]|].
  split; [intros ->; cbn in W1; subst body; discriminate|].
  split; [split; [exact P1|exact P2]|]. split; [|split; [exact W4|exact W6]].
  clear - W3. revert W3. set (prot := prot_of _ e). set (mtu := c_mtu _). clearbody prot mtu. 
  generalize 0. induction cs as [|c cs IH]; intros off W3; cbn [pieces]; constructor; inversion W3; subst; [|apply IH; assumption].
  rewrite len_app. unfold s_hs_header. rewrite !len_app, !len_be. lia.
Qed.
Print Assumptions C09_fragments_cover12.

(** A 2000-byte message with the default MTU: two fragments. *)
Example C09_case : let e := eng12_new toy config_default (toy_auth 7) in
  25 + prot_of (mt12_epoch MT_Certificate) e < c_mtu (en_cfg e) /\ en_next_hs e < 2^16 /\
  match create_handshake toy MT_Certificate (ret (repeat 7 2000)) e with
  | (Ok _, e') => map (fun k => len (snd k)) (en_saved e') = [1137; 887] /\ map len (en_tx e') = [1150; 900]
  | _ => False
  end.
Proof. vm_compute. repeat split. Qed.

(** ** C42: writes *)

(** The records an endpoint produced: what it handed out and what it still has to
    hand out. *)
Definition produced (E : Env) (h : list (Call * Reply)) (s : End12) (rs : list SRec) : Prop :=
  exists rss, map (flat_map encode) rss = packets_of (outputs h) ++ en_tx (end_eng s) /\
    concat rss = rs /\ Forall (wire_ok E) rs.
(** The contents of the records of type [ct]. *)
Definition contents (ct : N) (rs : list SRec) : list bytes :=
  map sr_plain (filter (fun r => sr_type r =? ct) rs).

Lemma apps_contents rs : apps (filter user_key (map key rs)) = contents CT_APP rs.
Proof.
  unfold apps, contents. induction rs as [|r rs IH]; [reflexivity|]. cbn [map filter].
  replace (user_key (key r)) with ((sr_type r =? CT_APP) || (sr_type r =? CT_ALERT)) by reflexivity.
  destruct (sr_type r =? CT_APP) eqn:H; cbn [orb].
  - cbn [filter]. replace (of_type CT_APP (key r)) with (sr_type r =? CT_APP) by reflexivity. rewrite H. cbn [map]. rewrite IH. reflexivity.
  - destruct (sr_type r =? CT_ALERT); [|exact IH]. cbn [filter].
    replace (of_type CT_APP (key r)) with (sr_type r =? CT_APP) by reflexivity. rewrite H. exact IH.
Qed.
Lemma alerts_keys rs : alerts (filter user_key (map key rs)) = map key (filter (fun r => sr_type r =? CT_ALERT) rs).
Proof.
  unfold alerts. induction rs as [|r rs IH]; [reflexivity|]. cbn [map filter].
  replace (user_key (key r)) with ((sr_type r =? CT_APP) || (sr_type r =? CT_ALERT)) by reflexivity.
  destruct (sr_type r =? CT_ALERT) eqn:H.
  - rewrite orb_true_r. cbn [filter]. replace (of_type CT_ALERT (key r)) with (sr_type r =? CT_ALERT) by reflexivity.
    rewrite H. cbn [map]. rewrite IH. reflexivity.
  - destruct (sr_type r =? CT_APP); cbn [orb]; [|exact IH]. cbn [filter].
    replace (of_type CT_ALERT (key r)) with (sr_type r =? CT_ALERT) by reflexivity. rewrite H. exact IH.
Qed.

Lemma account E cfg auth h s : reach12 E cfg auth h s ->
  exists rs, produced E h s rs /\
    (~ was_connected h s -> contents CT_APP rs = []) /\
    map key (filter (fun r => sr_type r =? CT_ALERT) rs) = (if end_closed s && en_release (end_eng s) then [close_notify] else []) /\
    sub (contents CT_APP rs) (writes h) /\
    (calm h = true -> en_cn_recv (end_eng s) = false -> (end_closed s = true -> was_connected h s) ->
     contents CT_APP rs ++ end_queued s = writes h).
Proof.
  intros HR. destruct (reach_J E cfg auth h s HR) as [(L & (B1 & B2 & rss & B3 & B4 & B5) & A & Sb & K) _].
  pose proof (was_connected_release _ _ _ _ _ HR) as WR. unfold end_release in WR.
  exists (concat rss). split; [exists rss; auto|]. rewrite <- apps_contents, B4, <- alerts_keys, B4.
  split; [|split; [exact A|split]].
  - intro X. rewrite B2; [reflexivity|]. destruct (en_release (end_eng s)); [tauto|reflexivity].
  - eapply sub_app_l. exact Sb.
  - intros X1 X2 X3. apply K; auto. intro X. apply WR, X3, X.
Qed.

(** The application data produced is a selection of the accepted writes, in
    order, each at most once, and there is none before Connected. *)
Theorem C42_in_order_at_most_once12 : forall E cfg auth h s, reach12 E cfg auth h s ->
  exists rs, produced E h s rs /\ sub (contents CT_APP rs) (writes h) /\
    (~ was_connected h s -> contents CT_APP rs = []).
Proof.
  intros E cfg auth h s HR. destruct (account E cfg auth h s HR) as (rs & H1 & H2 & _ & H3 & _). exists rs. auto.
Qed.
Print Assumptions C42_in_order_at_most_once12.

(** Nothing is lost: unless a call failed because the send queue was full or
    protection failed ([calm]), the peer closed, or the handshake was given up by
    [close], every accepted write is produced or held back, in order; and nothing
    is held back once the endpoint is established. *)
Theorem C42_nothing_lost12 : forall E cfg auth h s, reach12 E cfg auth h s ->
  calm h = true -> en_cn_recv (end_eng s) = false -> (end_closed s = true -> was_connected h s) ->
  exists rs, produced E h s rs /\ contents CT_APP rs ++ end_queued s = writes h /\
    (end_established s -> contents CT_APP rs = writes h).
Proof.
  intros E cfg auth h s HR C1 C2 C3. destruct (account E cfg auth h s HR) as (rs & H1 & _ & _ & _ & H2). exists rs.
  specialize (H2 C1 C2 C3). split; [exact H1|]. split; [exact H2|]. intro X.
  destruct (reach_J E cfg auth h s HR) as [_ Q]. rewrite Q, app_nil_r in H2; auto.
  apply Forall_forall. intros x Hx Px. unfold calm in C1. rewrite forallb_forall in C1. specialize (C1 x Hx).
  destruct x as [c r]. cbn in *. destruct r; try contradiction. discriminate.
Qed.
Print Assumptions C42_nothing_lost12.

(** Two writes before the handshake finishes, one after it. *)
Example C42_case : let h := fst short_run in let s := snd short_run in
  reach12 toy config_default (toy_auth 7) h s /\ calm h = true /\ en_cn_recv (end_eng s) = false /\
  end_closed s = false /\ end_established s /\ was_connected h s /\ writes h = [[1; 2]; [3; 4; 5]; [6]].
Proof.
  split; [exact short_run_reach|]. split; [vm_compute; reflexivity|]. split; [vm_compute; reflexivity|].
  split; [vm_compute; reflexivity|]. split; [vm_compute; reflexivity|].
  split; [|vm_compute; reflexivity].
  exact (proj2 (was_connected_release _ _ _ _ _ short_run_reach) (eq_refl true <: end_release (snd short_run) = true)).
Qed.

(** Without [calm] it is false: if the held back writes do not fit the send queue
    when the handshake completes, the call that completes it returns an error, the
    endpoint is connected and the writes are gone: fewer bytes were ever handed out
    or queued than were accepted. *)
Theorem C42_write_lost12_refuted : exists E cfg auth h s,
  reach12 E cfg auth h s /\ Forall (fun x => ~ panicked (snd x)) h /\
  In OConnected (outputs h) /\ end_established s /\ en_cn_recv (end_eng s) = false /\ end_queued s = [] /\
  len (concat (packets_of (outputs h) ++ en_tx (end_eng s))) < len (concat (writes h)).
Proof.
  exists toy, config_default, (toy_auth 7), (fst early_run), (snd early_run).
  split; [exact early_run_reach|]. split; [apply quiet_forall; vm_compute; reflexivity|].
  split; [|split; [vm_compute; reflexivity|split; [vm_compute; reflexivity|split; vm_compute; reflexivity]]].
  assert (X : existsb (fun o => match o with OConnected => true | _ => false end) (outputs (fst early_run)) = true) by (vm_compute; reflexivity).
  apply existsb_exists in X. destruct X as (o & H1 & H2). destruct o; try discriminate H2. exact H1.
Qed.
Print Assumptions C42_write_lost12_refuted.

(** ** C43: close *)

Lemma c_closed_stays E c x : cl_state x = CS_Closed -> (forall cap, c <> Poll cap) ->
  cl_state (snd (client12_call E c x)) = CS_Closed.
Proof.
  intros H NP.
  assert (P : forall a, cl_state a = CS_Closed -> c_progress E 40 a = (Ok tt, a)).
  { intros a Ha. cbn [c_progress]. unfold bind, get. rewrite Ha. cbn. reflexivity. }
  destruct c; try (exfalso; eapply NP; reflexivity); cbn [client12_call]; unfold no_output, bind.
  - unfold client12_handle_packet, public, bind, ceng, zoom, c_make_progress.
    destruct (eng12_parse_packet E p (cl_eng x)) as [[u|e|n] e1]; cbn [fst snd].
    + rewrite P by exact H. exact H.
    + destruct e; exact H.
    + exact H.
  - unfold client12_handle_timeout, public, c_make_progress, bind, modify, get, ceng, zoom. ecbn.
    unfold ret. destruct (cl_random x) in |- *; cbv beta iota.
    + destruct (eng12_handle_timeout E now _) as [[u|e|n] e1]; cbn [fst snd]; [|exact H..]. rewrite P by exact H. exact H.
    + destruct (random_with_time E now _) as [[u|e|n] e1]; cbn [fst snd]; [|exact H..].
      destruct (eng12_handle_timeout E now _) as [[u1|e|n] e2]; cbn [fst snd]; [|exact H..]. rewrite P by exact H. exact H.
  - unfold client12_send, bind, get. rewrite H. exact H.
  - unfold client12_close, bind, get. rewrite H. exact H.
Qed.
Lemma s_closed_stays E c x : sv_state x = SS_Closed -> (forall cap, c <> Poll cap) ->
  sv_state (snd (server12_call E c x)) = SS_Closed.
Proof.
  intros H NP.
  assert (P : forall a, sv_state a = SS_Closed -> s_progress E 40 a = (Ok tt, a)).
  { intros a Ha. cbn [s_progress]. unfold bind, get. rewrite Ha. cbn. reflexivity. }
  destruct c; try (exfalso; eapply NP; reflexivity); cbn [server12_call]; unfold no_output, bind.
  - unfold server12_handle_packet, public, bind, seng, zoom, s_make_progress.
    destruct (eng12_parse_packet E p (sv_eng x)) as [[u|e|n] e1]; cbn [fst snd].
    + rewrite P by exact H. exact H.
    + destruct e; exact H.
    + exact H.
  - unfold server12_handle_timeout, public, s_make_progress, bind, modify, get, seng, zoom. ecbn.
    unfold ret. destruct (sv_random x) in |- *; cbv beta iota.
    + destruct (eng12_handle_timeout E now _) as [[u|e|n] e1]; cbn [fst snd]; [|exact H..]. rewrite P by exact H. exact H.
    + destruct (random_with_time E now _) as [[u|e|n] e1]; cbn [fst snd]; [|exact H..].
      destruct (eng12_handle_timeout E now _) as [[u1|e|n] e2]; cbn [fst snd]; [|exact H..]. rewrite P by exact H. exact H.
  - unfold server12_send, bind, get. rewrite H. exact H.
  - unfold server12_close, bind, get. rewrite H. exact H.
Qed.

Lemma closed_stays E c s r s' : end12_call E c s = (r, s') -> end_closed s = true -> end_closed s' = true.
Proof.
  intros H C. destruct (match c with Poll _ => true | _ => false end) eqn:Hc.
  - destruct c; try discriminate. rewrite poll_unfold in H. destruct (end_events s) as [|[| |m x] l].
    + destruct (eng12_poll_output _ _ _) as [r0 e0]. injection H as <- <-. destruct s; exact C.
    + destruct (end_certs s); [|destruct (_ <=? cap)]; injection H as <- <-; destruct s; exact C.
    + injection H as <- <-; destruct s; exact C.
    + injection H as <- <-; destruct s; exact C.
  - assert (NP : forall cap, c <> Poll cap) by (intros cap ->; discriminate).
    destruct s as [x|x]; cbn [end12_call] in H.
    + assert (K : cl_state x = CS_Closed) by (cbn in C; destruct (cl_state x); try discriminate; reflexivity).
      pose proof (c_closed_stays E c x K NP) as Q. destruct (client12_call E c x). injection H as <- <-. cbn in *. rewrite Q. reflexivity.
    + assert (K : sv_state x = SS_Closed) by (cbn in C; destruct (sv_state x); try discriminate; reflexivity).
      pose proof (s_closed_stays E c x K NP) as Q. destruct (server12_call E c x). injection H as <- <-. cbn in *. rewrite Q. reflexivity.
Qed.

Lemma close_closes E s o s' : end12_call E Close s = (Ok o, s') -> end_closed s' = true.
Proof.
  destruct s as [x|x]; cbn [end12_call client12_call server12_call]; unfold no_output, client12_close, server12_close, bind, get, modify, ret, ceng, seng, zoom;
    [destruct (cl_state x) eqn:Hs|destruct (sv_state x) eqn:Hs];
    try (destruct (create_record _ _ _ _ _ _) as [[?|?|?] ?]); try (destruct (eng12_abort _) as [[?|?|?] ?]); cbn [fst snd];
    intros [= <- <-]; cbn; rewrite ?Hs; reflexivity.
Qed.

(** After a [close] that returned Ok, whatever else happened since: writes fail
    with ConnectionClosed, another [close] returns Ok, and neither changes
    anything. *)
Theorem C43_close_is_final12 : forall E cfg auth h s,
  reach12 E cfg auth h s -> In (Close, Ok None) h ->
  (forall d, end12_call E (Send d) s = (Err EClosed, s)) /\ end12_call E Close s = (Ok None, s).
Proof.
  intros E cfg auth h s (s0 & _ & H) HC.
  assert (K : end_closed s = true).
  { induction H as [|h s c r s' H IH NP Hc]; [destruct HC|]. apply in_app_or in HC. destruct HC as [HC|[HC|[]]].
    - eapply closed_stays; [exact Hc|exact (IH HC)].
    - injection HC as -> ->. eapply close_closes. exact Hc. }
  clear - K. destruct s as [x|x]; cbn in K.
  - assert (Hx : cl_state x = CS_Closed) by (destruct (cl_state x); try discriminate; reflexivity).
    split; [intro d|]; cbn [end12_call client12_call]; unfold no_output, client12_send, client12_close, bind, get, fail, ret; rewrite Hx; reflexivity.
  - assert (Hx : sv_state x = SS_Closed) by (destruct (sv_state x); try discriminate; reflexivity).
    split; [intro d|]; cbn [end12_call server12_call]; unfold no_output, server12_send, server12_close, bind, get, fail, ret; rewrite Hx; reflexivity.
Qed.
Print Assumptions C43_close_is_final12.

(** The alerts an endpoint ever produces are one close_notify (level 1, description
    0, epoch 1), and only if it is closed and had been connected. *)
Theorem C43_one_close_notify12 : forall E cfg auth h s, reach12 E cfg auth h s ->
  exists rs, produced E h s rs /\
    let alerts := filter (fun r => sr_type r =? CT_ALERT) rs in
    (end_closed s = true /\ was_connected h s -> exists r, alerts = [r] /\ sr_epoch r = 1 /\ sr_plain r = [1; 0]) /\
    (~ (end_closed s = true /\ was_connected h s) -> alerts = []).
Proof.
  intros E cfg auth h s HR. destruct (account E cfg auth h s HR) as (rs & H1 & _ & H2 & _). exists rs. split; [exact H1|].
  cbv zeta. pose proof (was_connected_release _ _ _ _ _ HR) as WR. unfold end_release in WR. split.
  - intros [C W]. apply WR in W. rewrite C, W in H2. cbn [andb] in H2.
    destruct (filter _ rs) as [|r l]; [discriminate|]. destruct l; [|discriminate]. exists r. injection H2 as A B D. auto.
  - intros N. destruct (end_closed s); cbn [andb] in H2; [destruct (en_release (end_eng s))|].
    + exfalso. tauto.
    + destruct (filter _ rs); [reflexivity|discriminate].
    + destruct (filter _ rs); [reflexivity|discriminate].
Qed.
Print Assumptions C43_one_close_notify12.

Example C43_case : let h := fst closed_run in let s := snd closed_run in
  reach12 toy config_default (toy_auth 7) h s /\ In (Close, Ok None) h /\ end_closed s = true /\ was_connected h s.
Proof.
  split; [exact closed_run_reach|]. split; [|split; [vm_compute; reflexivity|]].
  - assert (X : existsb (fun x => match x with (Close, Ok None) => true | _ => false end) (fst closed_run) = true) by (vm_compute; reflexivity).
    apply existsb_exists in X. destruct X as ([c r] & H1 & H2). destruct c; try discriminate H2. destruct r as [[o|]|?|?]; try discriminate H2. exact H1.
  - exact (proj2 (was_connected_release _ _ _ _ _ closed_run_reach) (eq_refl true <: end_release (snd closed_run) = true)).
Qed.
