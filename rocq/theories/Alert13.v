(** Proofs about alerts and the end of a DTLS 1.3 connection. *)
From Verif Require Import Prelude PreludeFacts Types Codec Codec12 Codec13 Record12 Record13 Monad MonadFacts Timer Env Config Aead Engine12 Client12
  Engine13 Client13 Server13 Spec Spec13 Record13Proofs Context12 History12 History12Facts History13 Frame13 Lift13 Index13 Trace13 Trace13Proofs Out13 Rx13Proofs PropRx13 Open13 Poll13Proofs Fin13 KeyUpd13 Recv13 Est13.

(** ** Who raises fatal-alert errors *)

Definition fatal (e : error) : bool := match e with EFatalAlert _ => true | _ => false end.
Definition quiet {S A} (m : M S A) : Prop := forall s e, fst (m s) = Err e -> fatal e = false.
Lemma quiet_bind {S A B} (m : M S A) (k : A -> M S B) : quiet m -> (forall a, quiet (k a)) -> quiet (bind m k).
Proof.
  intros Hm Hk s e. unfold bind. specialize (Hm s). destruct (m s) as [[a|x|n] s1]; cbn [fst] in *; [apply Hk|intros [= <-]; auto|discriminate].
Qed.
Lemma quiet_ret {S A} (a : A) : quiet (ret a : M S A).
Proof. intros s e. discriminate. Qed.
Lemma quiet_fail {S A} e : fatal e = false -> quiet (fail e : M S A).
Proof. intros H s x. unfold fail. cbn [fst]. congruence. Qed.
Lemma quiet_panic {S A} n : quiet (panic n : M S A).
Proof. intros s e. discriminate. Qed.
Lemma quiet_get {S} : quiet (get : M S S).
Proof. intros s e. discriminate. Qed.
Lemma quiet_modify {S} (f : S -> S) : quiet (modify f).
Proof. intros s e. discriminate. Qed.
Lemma quiet_opt {S A} e (o : option A) : fatal e = false -> quiet (of_opt e o : M S A).
Proof. intros H. destruct o; [apply quiet_ret|apply quiet_fail, H]. Qed.
Lemma quiet_iter {S A} (f : A -> M S unit) l : (forall x, quiet (f x)) -> quiet (iterM f l).
Proof. intros H. induction l as [|x l IH]; cbn [iterM]; [apply quiet_ret|]. apply quiet_bind; auto. Qed.
Lemma quiet_zoom {S T A} (g : S -> T) p (m : M T A) : quiet m -> quiet (zoom g p m).
Proof. intros H s e. unfold zoom. specialize (H (g s)). destruct (m (g s)). exact (H e). Qed.
Lemma quiet_draw : quiet draw13.
Proof. intros s e. discriminate. Qed.
Ltac quiet_ more := repeat first [more | apply quiet_bind; [|intro] | apply quiet_ret | apply quiet_panic | apply quiet_get | apply quiet_modify | apply quiet_draw
  | apply quiet_fail; reflexivity | apply quiet_opt; reflexivity | apply quiet_iter; intro | match goal with |- quiet (when ?b _) => unfold when; destruct b | |- quiet (match ?x with _ => _ end) => destruct x
  | |- quiet (let _ := _ in _) => cbv zeta end ].
Ltac quiet := quiet_ fail.

Lemma quiet_cipher E ct ep b fr : quiet (create_cipher13 E ct ep b fr).
Proof. unfold create_cipher13, save13, enqueue13, suite_provider13. quiet. Qed.
Lemma quiet_plain ct b fr : quiet (create_plain13 ct b fr).
Proof. unfold create_plain13, save13, enqueue13. quiet. Qed.
Lemma quiet_ack E : quiet (send_ack13 E).
Proof. unfold send_ack13, send_ack_inner. quiet_ ltac:(apply quiet_cipher). Qed.
Lemma quiet_key_update E b : quiet (create_key_update E b).
Proof. unfold create_key_update, flight_begin13. quiet_ ltac:(apply quiet_cipher). Qed.
Lemma quiet_needs : quiet take_needs_key_update.
Proof. unfold take_needs_key_update. quiet. Qed.
Lemma quiet_next a b w : quiet (next_handshake13_gen a b w).
Proof. unfold next_handshake13_gen. quiet. Qed.
Lemma quiet_update_recv E : quiet (update_recv_keys E).
Proof. unfold update_recv_keys, derive_next_secret, derive_epoch_keys, label13, hash_alg13, suite_provider13, push_recv. quiet. Qed.
Lemma quiet_update_send E : quiet (update_send_keys E).
Proof. unfold update_send_keys, derive_next_secret, derive_epoch_keys, label13, hash_alg13, suite_provider13. quiet. Qed.
Lemma quiet_process_ack E d : quiet (process_ack E d).
Proof. unfold process_ack. quiet_ ltac:(apply quiet_update_send). Qed.
Lemma quiet_resend E es : quiet (resend_loop13 E es).
Proof. induction es as [|x es IH]; cbn [resend_loop13]; quiet_ ltac:(first [exact IH | apply quiet_cipher | apply quiet_plain]). Qed.
Lemma quiet_insert E inc : quiet (insert_incoming13 E inc).
Proof.
  unfold insert_incoming13, insert_handshake13, insert_non_handshake13, bsearch13, flight_resend13.
  quiet_ ltac:(apply quiet_resend).
Qed.
Lemma quiet_rec E raw : quiet (rec_parse13 E raw).
Proof. unfold rec_parse13, unmask13, suite_provider13. quiet. Qed.
Lemma quiet_loop E fuel : forall room p, quiet (parse_loop13 E fuel room p).
Proof.
  induction fuel as [|fuel IH]; intros room p; destruct p as [|b p]; cbn [parse_loop13]; quiet_ ltac:(first [apply quiet_rec|apply IH]).
Qed.
Lemma quiet_x_fin E st : fin_x st = true -> quiet (x_step E st).
Proof.
  destruct st; try discriminate; intros _; cbn [x_step]; unfold x_await_application_data, x_half_closed_local, xeng, next_handshake13_no_transcript, advance_peer;
  quiet_ ltac:(first [apply quiet_zoom | apply quiet_needs | apply quiet_key_update | apply quiet_cipher | apply quiet_next | apply quiet_update_recv | apply quiet_ack]).
Qed.
Lemma quiet_y_fin E st : fin_y st = true -> quiet (y_step E st).
Proof.
  destruct st; try discriminate; intros _; cbn [y_step]; unfold y_await_application_data, y_half_closed_local, yeng, next_handshake13_no_transcript, advance_peer;
  quiet_ ltac:(first [apply quiet_zoom | apply quiet_needs | apply quiet_key_update | apply quiet_cipher | apply quiet_next | apply quiet_update_recv | apply quiet_ack]).
Qed.

(** ** What one record does *)

(** [b] differs from [a] as classifying the record [r] may change it. *)
Lemma classify_all_fatal E (Q : Rec12 -> Prop) d rs : forall s s', g_penc s = true ->
  Forall (fun r => r_epoch r = 0 \/ Q r) rs -> classify_all13 E rs s = (Err (EFatalAlert d), s') ->
  exists r, Q r /\ r_ctype r = CT_ALERT /\ nth_error (r_frag r) 1 = Some d /\ d <> 0 /\ d <> 90.
Proof.
  induction rs as [|r rs IH]; intros s s' Hp F H; cbn [classify_all13] in H; [discriminate|].
  inversion F as [|? ? F1 F2]; subst. unfold bind at 1 in H.
  destruct (classify_record13 E r s) as [[o|e|n] s1] eqn:Hr.
  - unfold bind in H. pose proof (classify_step E (fun _ _ => True) r s Hp) as [_ K]; [right; auto|]. rewrite Hr in K. cbn [snd] in K.
    destruct (classify_all13 E rs s1) as [[l|e|n] s2] eqn:Hl; cbn in H; try discriminate.
    injection H as -> <-. eapply IH; eassumption.
  - injection H as -> <-. unfold classify_record13, bind at 1, get in Hr.
    destruct (match g_cn s with Some cn => _ | None => _ end); [discriminate|].
    rewrite Hp, andb_true_r in Hr. destruct ((r_epoch r =? 0) && _) eqn:H0; [discriminate|].
    destruct (r_ctype r =? CT_ACK) eqn:Hc.
    { exfalso. unfold bind in Hr. pose proof (quiet_process_ack E (r_frag r) s) as K.
      destruct (process_ack E (r_frag r) s) as [[u|e|n] b]; cbn in *; try discriminate. injection Hr as -> _. specialize (K _ eq_refl). discriminate. }
    destruct (r_ctype r =? CT_ALERT) eqn:Ha; [|destruct (r_ctype r =? CT_CCS); discriminate].
    cbn [orb] in H0. rewrite andb_true_r in H0. apply N.eqb_neq in H0. apply N.eqb_eq in Ha.
    destruct (nth_error (r_frag r) 1) as [d'|] eqn:Hd; [|discriminate].
    destruct (d' =? 0) eqn:D0; [discriminate|]. destruct (d' =? 90) eqn:D9; [discriminate|]. injection Hr as -> _.
    apply N.eqb_neq in D0, D9. exists r. destruct F1 as [F1|F1]; [contradiction|]. auto.
  - discriminate.
Qed.

Lemma parse_fatal E p d s s' : g_penc s = true -> eng13_parse_packet E p s = (Err (EFatalAlert d), s') ->
  exists ep n lvl rest, opened13 E s p CT_ALERT ep n (lvl :: d :: rest) /\ d <> 0 /\ d <> 90.
Proof.
  intros Hp H. unfold eng13_parse_packet, records_parse13, bind at 1, bind at 1 in H.
  pose proof (parse_loop_opened E p (length p) 16 p [] s Hp eq_refl) as W. unfold wp in W.
  pose proof (quiet_loop E (length p) 16 p s) as Q.
  pose proof (fr_parse_loop13 E ku_same ku_same_po (ku_same_rec E) (length p) 16 p s) as K.
  destruct (parse_loop13 E (length p) 16 p s) as [[rs|e|n] s1]; cbn [fst snd] in *.
  - destruct (classify_all13 E rs s1) as [[l|e|n] s2] eqn:Hc.
    + exfalso. destruct l as [|r l]; [discriminate|]. pose proof (quiet_insert E (r :: l) s2) as QI. rewrite H in QI. specialize (QI _ eq_refl). discriminate.
    + injection H as -> <-. destruct (classify_all_fatal E (fun r => opened13 E s p (r_ctype r) (r_epoch r) (r_seq r) (r_frag r)) d rs s1 s2) with (2 := W) (3 := Hc) as (r & R1 & R2 & R3 & R4).
      { unfold ku_same, ku_view in K. injection K as _ _ _ _ <-. exact Hp. }
      exists (r_epoch r), (r_seq r). destruct (r_frag r) as [|lvl [|d' rest]] eqn:Hf; try discriminate. cbn in R3. injection R3 as ->.
      exists lvl, rest. rewrite R2 in R1. auto.
    + discriminate.
  - injection H as -> <-. specialize (Q _ eq_refl). discriminate.
  - discriminate.
Qed.

Lemma quiet_public {S} (m : M S unit) : quiet m -> quiet (public m).
Proof.
  intros H s e. unfold public. specialize (H s). destruct (m s) as [[a|x|n] s1]; cbn [fst] in *; [discriminate| |discriminate].
  destruct x; intros K; try discriminate; cbn [fst] in K; injection K as <-; auto.
Qed.
Lemma call_fatal E p d s s' : fin13 s = true -> g_penc (end13_eng s) = true ->
  end13_call E (Packet p) s = (Err (EFatalAlert d), s') -> exists e', eng13_parse_packet E p (end13_eng s) = (Err (EFatalAlert d), e').
Proof.
  intros Hf Hp Hc. destruct s as [c|c]; cbn [end13_call fin13 end13_eng] in *.
  - destruct (client13_call E (Packet p) c) as [r1 c1] eqn:Hk. injection Hc as -> <-. cbn [client13_call] in Hk.
    unfold no_output, client13_handle_packet, bind at 1, public, bind at 1 in Hk.
    destruct (xeng_eng (eng13_parse_packet E p) c) as [X1 X2]. unfold xeng, zoom in Hk, X2.
    destruct (eng13_parse_packet E p (xc_eng c)) as [[[]|e|m] e1]; cbn [snd] in X2.
    + unfold x_make_progress in Hk. set (c2 := set_xc_eng e1 c) in *. clearbody c2. rewrite (x_progress_one E 38 c2) in Hk by (rewrite X2; exact Hf).
      pose proof (quiet_x_fin E (xc_state c2)) as Q. rewrite X2 in Q at 1. specialize (Q Hf c2).
      destruct (x_step E (xc_state c2) c2) as [[st|e|m] c3]; cbn [fst] in Q.
      * discriminate.
      * specialize (Q _ eq_refl). destruct e; try discriminate.
      * discriminate.
    + exists e1. destruct e; injection Hk; intros; subst; try discriminate; reflexivity.
    + discriminate.
  - destruct (server13_call E (Packet p) c) as [r1 c1] eqn:Hk. injection Hc as -> <-. cbn [server13_call] in Hk.
    unfold no_output, server13_handle_packet in Hk. unfold bind at 1, bind at 1, get in Hk.
    assert (NA : sstate13_eqb (xs_state c) ST_AwaitClientHello = false) by (destruct (xs_state c); [discriminate Hf|reflexivity..]).
    rewrite NA, andb_false_r in Hk. unfold public, y_process, bind at 1 in Hk.
    destruct (yeng_eng (eng13_parse_packet E p) c) as [X1 X2]. unfold yeng, zoom in Hk, X2.
    destruct (eng13_parse_packet E p (xs_eng c)) as [[[]|e|m] e1]; cbn [snd] in X2.
    + unfold y_make_progress, bind at 1 in Hk. set (c2 := set_xs_eng e1 c) in *. clearbody c2. rewrite (y_progress_one E 38 c2) in Hk by (rewrite X2; exact Hf).
      pose proof (quiet_y_fin E (xs_state c2)) as Q. rewrite X2 in Q at 1. specialize (Q Hf c2).
      destruct (y_step E (xs_state c2) c2) as [[st|e|m] c3]; cbn [fst] in Q.
      * unfold bind, get, when, modify, ret in Hk. destruct (_ && _); discriminate.
      * specialize (Q _ eq_refl). destruct e; try discriminate.
      * discriminate.
    + exists e1. destruct e; injection Hk; intros; subst; try discriminate; reflexivity.
    + discriminate.
Qed.

(** ** Datagrams of one record *)

Lemma rec_parse_facts E raw e o e' : rec_parse13 E raw e = (Ok o, e') ->
  (e' = e \/ exists ep sq, e' = replay_update13 ep sq e) /\
  match o with Some r => exists ct ep sq n fr buf, r = rec13_of ct ep sq n fr buf | None => True end.
Proof.
  unfold rec_parse13. set (G := fun z : res (option Rec12) * Eng13 => forall o, fst z = Ok o -> (snd z = e \/ exists ep sq, snd z = replay_update13 ep sq e) /\
    match o with Some r => exists ct ep sq n fr buf, r = rec13_of ct ep sq n fr buf | None => True end).
  assert (W : forall b buf, G ((match p_parsed13 buf with
  | None => ret None
  | Some (r, header_end) =>
    if negb (is_ct_header b) || negb (g_penc e) then ret (Some r)
    else
      let ep := resolve_epoch e (r_epoch r) in
      let sq := resolve_sequence e ep (r_seq r) (flag_s b) in
      if negb (replay_check13 e ep sq) then ret None
      else
        let! i := suite_provider13 E in
        if Nat.ltb (length buf - header_end) (s13_tag i) then ret None
        else
          let hdr := firstn header_end buf in
          let body := skipn header_end buf in
          match recv_keys13 e ep with
          | None => ret None
          | Some k =>
            match e_open E (ek_suite k) (ek_key k) (nonce_xor (ek_iv k) sq) hdr body with
            | None => ret None
            | Some pt =>
              modify (replay_update13 ep sq) ;;;
              match inner_type pt with
              | None => ret None
              | Some (t, content) =>
                ret (Some (rec13_of t ep sq (u16 (len content)) content
                             (hdr ++ pt ++ skipn (length pt) body)))
              end
            end
          end
  end) e)).
  { intros b buf. destruct (p_parsed13 buf) as [[r he]|] eqn:Hp; [|intros x [= <-]; auto].
    destruct (_ || _).
    - intros x [= <-]. split; [auto|]. unfold p_parsed13 in Hp. destruct (p_rec13 buf) as [[hh tl]|]; [|discriminate]. injection Hp as <- _. do 6 eexists; reflexivity.
    - cbv zeta. destruct (negb (replay_check13 _ _ _)); [intros x [= <-]; auto|].
      unfold suite_provider13, bind, get. destruct (g_suite e) as [cs|]; [|intros x; discriminate]. destruct (find13 E cs) as [i|]; [|intros x; discriminate].
      cbn [ret]. destruct (Nat.ltb _ _); [intros x [= <-]; auto|]. destruct (recv_keys13 _ _) as [k|]; [|intros x [= <-]; auto].
      destruct (e_open _ _ _ _ _ _) as [pt|]; [|intros x [= <-]; auto]. unfold modify. destruct (inner_type pt) as [[t cc]|]; intros x [= <-].
      + split; [right; do 2 eexists; reflexivity|]. do 6 eexists; reflexivity.
      + split; [right; do 2 eexists; reflexivity|trivial]. }
  unfold bind at 1, get at 1. cbv zeta.
  destruct (_ && _).
  - unfold bind at 1. destruct (unmask13 E raw e) as [[buf|x|x] e1] eqn:Hu; [|discriminate..].
    assert (e1 = e) as ->.
    { clear - Hu. unfold unmask13, suite_provider13, bind, get, ret, panic in Hu.
      repeat match goal with H : context [match ?x with _ => _ end] |- _ => destruct x eqn:? end; congruence. }
    intros H. pose proof (W (hd 0 raw) buf) as K. unfold G in K. cbv zeta in K. rewrite H in K. exact (K _ eq_refl).
  - unfold bind at 1, ret at 1. intros H. pose proof (W (hd 0 raw) raw) as K. unfold G in K. cbv zeta in K. rewrite H in K. exact (K _ eq_refl).
Qed.
Lemma rec_parse_hs E raw e r e' : rec_parse13 E raw e = (Ok (Some r), e') -> r_hs r = if r_ctype r =? CT_HS then p_frags12 8 (r_frag r) else [].
Proof. intros H. apply rec_parse_facts in H. destruct H as (_ & ct & ep & sq & n & fr & buf & ->). reflexivity. Qed.
Lemma rec_parse_keeps E raw e o e' : rec_parse13 E raw e = (Ok o, e') ->
  g_cn e' = g_cn e /\ g_penc e' = g_penc e /\ g_release e' = g_release e /\ g_rx e' = g_rx e /\ g_peer_hs e' = g_peer_hs e /\ g_cfg e' = g_cfg e.
Proof.
  intros H. apply rec_parse_facts in H. destruct H as ([->|(ep & sq & ->)] & _); [auto 10|]. unfold replay_update13. destruct (ep =? 2); repeat split; reflexivity.
Qed.

Lemma cmp_not_gt e ep n cn : (forall a b, g_cn e = Some (a, b) -> ep < a \/ ep = a /\ n <= b) -> g_cn e = Some cn ->
  cmp_pair (ep, n) cn <> Gt.
Proof.
  intros H K. destruct cn as [a b]. specialize (H a b K). unfold cmp_pair. cbn [fst snd].
  destruct (ep ?= a) eqn:C; [apply N.compare_eq_iff in C; subst|discriminate|apply N.compare_gt_iff in C; lia].
  intros D. apply N.compare_gt_iff in D. lia.
Qed.

(** A datagram of one record. *)
Lemma parse_one E raw e r e' : raw <> [] -> rec_bound13 raw = BRec (length raw) -> rec_parse13 E raw e = (Ok (Some r), e') ->
  parse_loop13 E (length raw) 16 raw e = (Ok [r], e').
Proof.
  intros Hn Hb H. destruct raw as [|b q] eqn:Hq; [contradiction|]. rewrite <- Hq in *.
  destruct (length raw) as [|fuel] eqn:Hl; [subst raw; discriminate|]. rewrite Hq. cbn [parse_loop13]. rewrite <- Hq.
  rewrite Hb. unfold bind at 1. rewrite <- Hl, firstn_all, H, skipn_all. destruct fuel; reflexivity.
Qed.
Lemma bound_nil raw n : rec_bound13 raw = BRec n -> raw <> [].
Proof. intros H ->. discriminate. Qed.

Lemma parse_one_fatal E raw e r e' lvl d rest : g_penc e = true -> rec_bound13 raw = BRec (length raw) ->
  rec_parse13 E raw e = (Ok (Some r), e') -> r_ctype r = CT_ALERT -> r_epoch r <> 0 -> r_frag r = lvl :: d :: rest ->
  (forall a b, g_cn e = Some (a, b) -> r_epoch r < a \/ r_epoch r = a /\ r_seq r <= b) -> d <> 0 -> d <> 90 ->
  eng13_parse_packet E raw e = (Err (EFatalAlert d), e').
Proof.
  intros P Hb H T Ep Hf Hc D0 D9. unfold eng13_parse_packet, records_parse13, bind at 1, bind at 1.
  rewrite (parse_one E raw e r e' (bound_nil _ _ Hb) Hb H). cbn [classify_all13]. unfold bind at 1, classify_record13, bind at 1, get.
  destruct (rec_parse_keeps E _ _ _ _ H) as (K1 & K2 & _). rewrite K1, K2.
  destruct (match g_cn e with Some _ => _ | None => _ end) eqn:G.
  { exfalso. pose proof (fun cn => cmp_not_gt e _ _ cn Hc) as CG. destruct (g_cn e) as [cn|]; [|discriminate]. specialize (CG cn eq_refl).
    destruct (cmp_pair _ _); [discriminate..|congruence]. }
  rewrite (proj2 (N.eqb_neq _ _) Ep). cbn [andb]. rewrite T, Hf. cbn [nth_error].
  change (CT_ALERT =? CT_ACK) with false. change (CT_ALERT =? CT_ALERT) with true. cbv iota.
  rewrite (proj2 (N.eqb_neq _ _) D0), (proj2 (N.eqb_neq _ _) D9). reflexivity.
Qed.
Lemma dupe13_own h k : dupe_triggers_resend13 h = Some k -> k = f_seq h.
Proof. unfold dupe_triggers_resend13. destruct (negb _); [discriminate|]. destruct (memN _ _); [|discriminate]. congruence. Qed.
Lemma parse_one_renegotiation E raw e r e' h : rec_bound13 raw = BRec (length raw) ->
  rec_parse13 E raw e = (Ok (Some r), e') -> r_ctype r = CT_HS ->
  (forall a b, g_cn e = Some (a, b) -> r_epoch r < a \/ r_epoch r = a /\ r_seq r <= b) ->
  first_hs r = Some h -> f_type h <> MT_KeyUpdate -> g_peer_hs e <= f_seq h -> g_release e = true ->
  len (g_rx e) < c_max_rx (g_cfg e) ->
  eng13_parse_packet E raw e = (Err ERenegotiation, e').
Proof.
  intros Hb H T Hc Hh Ht Hs Hr Hq. unfold eng13_parse_packet, records_parse13, bind at 1, bind at 1.
  rewrite (parse_one E raw e r e' (bound_nil _ _ Hb) Hb H). cbn [classify_all13]. unfold bind at 1, classify_record13, bind at 1, get at 1.
  destruct (rec_parse_keeps E _ _ _ _ H) as (K1 & K2 & K3 & K4 & K5 & K6). rewrite K1, K2.
  destruct (match g_cn e with Some _ => _ | None => _ end) eqn:G.
  { exfalso. pose proof (fun cn => cmp_not_gt e _ _ cn Hc) as CG. destruct (g_cn e) as [cn|]; [|discriminate]. specialize (CG cn eq_refl).
    destruct (cmp_pair _ _); [discriminate..|congruence]. }
  rewrite T. change (CT_HS =? CT_ACK) with false. change (CT_HS =? CT_ALERT) with false. change (CT_HS =? CT_CCS) with false.
  cbn [orb]. rewrite andb_false_r. cbn [ret bind]. 
  unfold insert_incoming13, bind at 1, get at 1. rewrite K4, K6. destruct (N.leb_spec (c_max_rx (g_cfg e)) (len (g_rx e))); [lia|].
  rewrite Hh. unfold insert_handshake13, bind at 1, get at 1. cbn [first_some]. rewrite Hh. cbv zeta.
  assert (D : (match match dupe_triggers_resend13 h with Some x => Some x | None => None end with
    | Some d => when (d <? g_peer_hs e') (flight_resend13 E) | None => ret tt end) e' = (Ok tt, e')).
  { destruct (dupe_triggers_resend13 h) as [d|] eqn:Hd; [|reflexivity]. apply dupe13_own in Hd. subst d. rewrite K5.
    destruct (N.ltb_spec (f_seq h) (g_peer_hs e)); [lia|reflexivity]. }
  unfold bind at 1. rewrite D. rewrite K5, K3, Hr. destruct (N.ltb_spec (f_seq h) (g_peer_hs e)); [lia|].
  rewrite (proj2 (N.eqb_neq _ _) Ht). reflexivity.
Qed.

Lemma plain_alert_ignored E raw e v sq content : g_penc e = true -> bytes_ok raw -> is_record12 raw CT_ALERT v 0 sq content ->
  eng13_parse_packet E raw e = (Ok tt, e).
Proof.
  intros P B L. assert (Hb : rec_bound13 raw = BRec (length raw)).
  { pose proof L as (v1 & v0 & e1 & e0 & s5 & s4 & s3 & s2 & s1 & s0 & l1 & l0 & L1 & _ & _ & _ & L5).
    rewrite L1. unfold rec_bound13. cbn [hd app]. change (is_ct_header CT_ALERT) with false. cbv iota. cbn [length skipn firstn].
    replace (Nat.ltb _ 13) with false by (symmetry; apply Nat.ltb_ge; lia).
    unfold unbe. cbn [fold_left]. replace (N.to_nat ((0 * 256 + l1) * 256 + l0)) with (length content) by lia.
    replace (Nat.ltb _ _) with false by (symmetry; apply Nat.ltb_ge; lia). f_equal. }
  pose proof (bound_nil _ _ Hb) as Hn.
  assert (Hh : hd 0 raw = CT_ALERT).
  { destruct L as (v1 & v0 & e1 & e0 & s5 & s4 & s3 & s2 & s1 & s0 & l1 & l0 & L1 & _). rewrite L1. reflexivity. }
  assert (HR : exists o, rec_parse13 E raw e = (Ok o, e) /\ match o with Some r => r_epoch r = 0 /\ r_ctype r = CT_ALERT | None => True end).
  { unfold rec_parse13, bind, get. rewrite Hh. change (is_ct_header CT_ALERT) with false. cbn [andb negb orb]. cbn [ret].
    destruct (p_parsed13 raw) as [[r he]|] eqn:Hp; [|exists None; split; [reflexivity|trivial]].
    exists (Some r). split; [reflexivity|]. unfold p_parsed13, p_rec13 in Hp.
    destruct raw as [|b q]; [contradiction|]. cbn [hd] in Hh. subst b. change (is_ct_header CT_ALERT) with false in Hp. cbv iota in Hp.
    unfold p_plain13 in Hp. change (p_u8 (CT_ALERT :: q)) with (Some (CT_ALERT, q)) in Hp. cbv iota in Hp.
    destruct (negb (memN CT_ALERT _)); [discriminate|].
    destruct (p_u16 q) as [[vv l2]|]; [|discriminate]. destruct (negb (_ || _)); [discriminate|].
    destruct (p_u16 l2) as [[ep l3]|]; [|discriminate]. destruct (ep =? 0) eqn:He; [|discriminate]. cbn [negb] in Hp.
    destruct (p_u48 l3) as [[sq' l4]|]; [|discriminate]. destruct (p_u16 l4) as [[n l5]|]; [|discriminate].
    destruct (take _ _) as [[fr rest]|]; [|discriminate]. injection Hp as <- _. apply N.eqb_eq in He. split; [exact He|reflexivity]. }
  destruct HR as (o & HR & Ho). unfold eng13_parse_packet, records_parse13, bind at 1, bind at 1.
  destruct o as [r|].
  - destruct Ho as [Ho1 Ho2]. rewrite (parse_one E raw e r e Hn Hb HR). cbn [classify_all13].
    unfold bind at 1, classify_record13, bind at 1, get. rewrite Ho1, Ho2, P.
    destruct (match g_cn e with Some _ => _ | None => _ end); reflexivity.
  - assert (PL : parse_loop13 E (length raw) 16 raw e = (Ok [], e)).
    { destruct raw as [|b q] eqn:Hq; [contradiction|]. rewrite <- Hq in *.
      destruct (length raw) as [|fuel] eqn:Hl; [subst raw; discriminate|]. rewrite Hq. cbn [parse_loop13]. rewrite <- Hq.
      rewrite Hb. unfold bind at 1. rewrite <- Hl, firstn_all, HR, skipn_all. destruct fuel; reflexivity. }
    rewrite PL. reflexivity.
Qed.
Lemma parse_empty E e : eng13_parse_packet E [] e = (Ok tt, e).
Proof. reflexivity. Qed.

(** The endpoint's reaction is determined by the engine's. *)
Lemma packet_ignored E raw s : fin13 s = true -> eng13_parse_packet E raw (end13_eng s) = (Ok tt, end13_eng s) ->
  end13_call E (Packet raw) s = end13_call E (Packet []) s.
Proof.
  intros F H. destruct s as [c|c]; cbn [end13_call end13_eng fin13] in *.
  - enough (client13_call E (Packet raw) c = client13_call E (Packet []) c) as -> by reflexivity. cbn [client13_call].
    unfold no_output, client13_handle_packet. unfold bind, public, bind, xeng, zoom. rewrite H, parse_empty. reflexivity.
  - enough (server13_call E (Packet raw) c = server13_call E (Packet []) c) as -> by reflexivity. cbn [server13_call].
    assert (NA : sstate13_eqb (xs_state c) ST_AwaitClientHello = false) by (destruct (xs_state c); [discriminate F|reflexivity..]).
    unfold no_output, bind. unfold server13_handle_packet, bind, get. rewrite NA, !andb_false_r.
    unfold public, y_process, bind, yeng, zoom. rewrite H, parse_empty. reflexivity.
Qed.
Lemma packet_error13' E raw s x e' : fin13 s = true -> eng13_parse_packet E raw (end13_eng s) = (Err x, e') -> x <> ETransient ->
  exists s', end13_call E (Packet raw) s = (Err x, s') /\ end13_eng s' = e'.
Proof.
  intros F H N. destruct s as [c|c]; cbn [end13_call end13_eng fin13] in *.
  - cbn [client13_call]. unfold no_output, client13_handle_packet, bind, public, xeng, zoom. rewrite H.
    destruct x; try contradiction; eexists; split; reflexivity.
  - cbn [server13_call].
    assert (NA : sstate13_eqb (xs_state c) ST_AwaitClientHello = false) by (destruct (xs_state c); [discriminate F|reflexivity..]).
    unfold no_output, bind. unfold server13_handle_packet, bind, get. rewrite NA, !andb_false_r.
    unfold public, y_process, bind, yeng, zoom. rewrite H.
    destruct x; try contradiction; eexists; split; reflexivity.
Qed.
Lemma packet_error13 E raw s x : fin13 s = true -> (exists e', eng13_parse_packet E raw (end13_eng s) = (Err x, e')) -> x <> ETransient ->
  exists s', end13_call E (Packet raw) s = (Err x, s').
Proof. intros F (e' & H) N. destruct (packet_error13' E raw s x e' F H N) as (s' & H' & _). eauto. Qed.

(** Before protected records are accepted. *)
Lemma early_fatal E raw e v sq lvl d rest : g_penc e = false -> bytes_ok raw ->
  is_record12 raw CT_ALERT v 0 sq (lvl :: d :: rest) -> v = 65279 \/ v = 65277 ->
  (forall a b, g_cn e = Some (a, b) -> 0 < a \/ 0 = a /\ sq <= b) -> d <> 0 -> d <> 90 ->
  eng13_parse_packet E raw e = (Err (EFatalAlert d), e).
Proof.
  intros P B L V Hc D0 D9. assert (Hb : rec_bound13 raw = BRec (length raw)).
  { pose proof L as (v1 & v0 & e1 & e0 & s5 & s4 & s3 & s2 & s1 & s0 & l1 & l0 & L1 & _ & _ & _ & L5).
    rewrite L1. unfold rec_bound13. cbn [hd app]. change (is_ct_header CT_ALERT) with false. cbv iota. cbn [length skipn firstn] in *.
    replace (Nat.ltb _ 13) with false by (symmetry; apply Nat.ltb_ge; lia).
    unfold unbe. cbn [fold_left]. replace (N.to_nat ((0 * 256 + l1) * 256 + l0)) with (S (S (length rest))) by lia.
    replace (Nat.ltb _ _) with false by (symmetry; apply Nat.ltb_ge; lia). f_equal. }
  assert (Hp : p_rec13 raw = Some (mkHdr13 CT_ALERT 0 sq (len (lvl :: d :: rest)) 13 (lvl :: d :: rest), [])).
  { rewrite <- (app_nil_r raw). eapply p_plain13_s; [exact B|exact L|]. split; [|split; [reflexivity|left; reflexivity]]. destruct V; auto. }
  assert (Hh : hd 0 raw = CT_ALERT).
  { destruct L as (v1 & v0 & e1 & e0 & s5 & s4 & s3 & s2 & s1 & s0 & l1 & l0 & L1 & _). rewrite L1. reflexivity. }
  assert (HR : exists buf, rec_parse13 E raw e = (Ok (Some (rec13_of CT_ALERT 0 sq (len (lvl :: d :: rest)) (lvl :: d :: rest) buf)), e)).
  { eexists. unfold rec_parse13, bind, get. rewrite Hh. change (is_ct_header CT_ALERT) with false. cbn [andb negb orb]. cbn [ret].
    unfold p_parsed13. rewrite Hp. reflexivity. }
  destruct HR as (buf & HR).
  unfold eng13_parse_packet, records_parse13, bind at 1, bind at 1.
  rewrite (parse_one E raw e _ e (bound_nil _ _ Hb) Hb HR). cbn [classify_all13]. unfold bind at 1, classify_record13, bind at 1, get.
  cbn [rec13_of r_epoch r_seq r_ctype r_frag nth_error]. rewrite P.
  destruct (match g_cn e with Some _ => _ | None => _ end) eqn:G.
  { exfalso. pose proof (fun cn => cmp_not_gt e 0 sq cn Hc) as CG. destruct (g_cn e) as [cn|]; [|discriminate]. specialize (CG cn eq_refl).
    destruct (cmp_pair _ _); [discriminate..|congruence]. }
  cbn [N.eqb andb]. change (CT_ALERT =? CT_ACK) with false. change (CT_ALERT =? CT_ALERT) with true. cbv iota.
  rewrite (proj2 (N.eqb_neq _ _) D0), (proj2 (N.eqb_neq _ _) D9). reflexivity.
Qed.
Lemma packet_error_any E raw s x e' : match s with XS c => len (xs_hellos c) < MAX_RETAINED | XC _ => True end ->
  eng13_parse_packet E raw (end13_eng s) = (Err x, e') -> x <> ETransient ->
  exists s', end13_call E (Packet raw) s = (Err x, s').
Proof.
  intros F H N. destruct s as [c|c]; cbn [end13_call end13_eng] in *.
  - cbn [client13_call]. unfold no_output, client13_handle_packet, bind, public, xeng, zoom. rewrite H.
    destruct x; try contradiction; eexists; reflexivity.
  - cbn [server13_call]. unfold no_output, bind. unfold server13_handle_packet, bind, get.
    destruct (xs_auto c && _).
    + destruct (N.leb_spec MAX_RETAINED (len (xs_hellos c))); [lia|]. unfold modify, public, y_process, bind, yeng, zoom.
      change (xs_eng (set_xs_hellos (xs_hellos c ++ [raw]) c)) with (xs_eng c). rewrite H. destruct x; try contradiction; eexists; reflexivity.
    + unfold public, y_process, bind, yeng, zoom. rewrite H. destruct x; try contradiction; eexists; reflexivity.
Qed.
