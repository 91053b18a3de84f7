(** What a DTLS 1.2 endpoint does with an authentic record, with a record its peer
    sealed, and with a datagram it rejects. *)
From Verif Require Import Prelude PreludeFacts Types Codec CodecProofs Codec12 Record12 Monad MonadFacts Timer Env
  Config Aead Prf Window WindowProofs Context12 Engine12 Client12 Server12 Engine12Frame Send12Proofs History12
  History12Facts EndFrame12 View12 Poll12Proofs Spec Record12Proofs Rx12Proofs Timer12Proofs Ledger12
  ClientInv12 ClientStep12 ServerInv12 ServerStep12 Events12 Lift12 Step12 Keys12 Rx12Ledger Rx12Facts.

Section Open.
Variable E : Env.
Hypothesis SOK : suites12_ok E.

(** ** One authentic record *)

(** The engine after it opened record number [sq] of type [ct]. *)
Definition after_open (ct sq : N) (e : Eng12) : Eng12 :=
  let e1 := set_en_replay (window_update (en_replay e) sq) e in
  if ct =? CT_APP then set_en_confirmed true e1 else e1.

Lemma authentic_record_of e raw ct ep sq d : bytes_ok raw -> authentic12 E e raw ct ep sq d -> record_of raw raw.
Proof.
  intros B (cs & i & key & iv & v & payload & A1 & A2 & A3 & A4 & A5 & A6 & A7 & A8 & A9).
  destruct (layout_s_rec12 _ _ _ _ _ _ B A5) as [Hraw F].
  assert (Hcut : cut raw = (13 + length payload)%nat).
  { unfold cut. rewrite Hraw. unfold s_rec12.
    replace (firstn 2 (skipn 11 (be 1 ct ++ be 2 v ++ be 2 ep ++ be 6 sq ++ be 2 (len payload) ++ payload))) with (be 2 (len payload)) by reflexivity.
    destruct F as (_ & _ & _ & _ & F). rewrite unbe_be_small by (cbn; lia). unfold len. lia. }
  assert (Lr : length raw = (13 + length payload)%nat).
  { rewrite Hraw. unfold s_rec12. rewrite !app_length, !be_length. lia. }
  pose proof (record_here raw ltac:(lia) ltac:(lia)) as X. rewrite Hcut, <- Lr, firstn_all in X. exact X.
Qed.

Lemma rec_parse_authentic e raw ct ep sq d : en_penc e = true -> linked E e -> bytes_ok raw ->
  authentic12 E e raw ct ep sq d -> window_check (en_replay e) sq = true -> len d < 65536 ->
  exists r, rec_parse E raw e = (Ok (Some r), after_open ct sq e) /\
    r_ctype r = ct /\ r_epoch r = ep /\ r_seq r = sq /\ r_frag r = d /\
    r_hs r = (if ct =? CT_HS then p_frags12 8 d else []) /\ r_handled r = false.
Proof.
  intros Pe Li B A W Ld. pose proof (authentic_opens E e raw ct ep sq d Li B A) as (r & iv & nonce & O1 & O2 & O3 & O4 & O5 & O6 & O7 & O8 & O9).
  destruct (parsed_shape _ _ B O1) as (_ & Hlen & F & V & _).
  assert (Lenl : (en_enl e <= length (r_frag r))%nat).
  { pose proof (linked_minp E e Li). rewrite Hlen in O9. unfold len in O9. lia. }
  destruct (reparse raw r (en_enl e) d B O1 Lenl Ld) as [Hre _].
  eexists. split.
  - unfold rec_parse. rewrite O1. unfold bind at 1, get. rewrite Pe. cbn [negb]. rewrite orb_false_r, O3.
    rewrite (proj2 (N.eqb_neq ep 0) O5), O4, W. cbn [negb].
    rewrite (proj2 (N.ltb_ge _ _) O9). unfold decryption_aad_and_nonce, bind at 1, bind at 1, get. rewrite O6.
    rewrite O3, O4, O7. unfold ret at 1. rewrite O2. unfold HEADER_LEN. rewrite O8.
    unfold bind, modify, when, ret, after_open. destruct (ct =? CT_APP); rewrite Hre; reflexivity.
  - cbn [r_ctype r_epoch r_seq r_frag r_hs r_handled]. rewrite O2. repeat split; auto.
Qed.

(** A datagram that is that record. *)
Lemma parse_one e raw ct ep sq d : en_penc e = true -> linked E e -> bytes_ok raw ->
  authentic12 E e raw ct ep sq d -> window_check (en_replay e) sq = true -> len d < 65536 ->
  exists r, r_ctype r = ct /\ r_epoch r = ep /\ r_seq r = sq /\ r_frag r = d /\
    r_hs r = (if ct =? CT_HS then p_frags12 8 d else []) /\ r_handled r = false /\
    eng12_parse_packet E raw e = (let! o := classify_record r in match o with None => ret tt | Some r' => insert_incoming E [r'] end) (after_open ct sq e).
Proof.
  intros Pe Li B A W Ld. destruct (rec_parse_authentic _ _ _ _ _ _ Pe Li B A W Ld) as (r & Hr & X).
  pose proof (authentic_record_of _ _ _ _ _ _ B A) as Rof. destruct (record_of_self _ _ Rof) as [L1 L2].
  exists r. destruct X as (X1 & X2 & X3 & X4 & X5 & X6). repeat (split; [assumption|]).
  unfold eng12_parse_packet, records_parse. destruct raw as [|b0 raw0] eqn:Eraw; [cbn in L1; lia|]. rewrite <- Eraw in *. clear Eraw.
  assert (Hl : parse_loop E (length raw) 8 raw e = (Ok [r], after_open ct sq e)).
  { destruct raw as [|b raw'] eqn:Hq; [cbn in L1; lia|]. rewrite <- Hq in *. destruct (length raw) as [|fuel] eqn:Hf; [lia|].
    rewrite Hq. cbn [parse_loop]. rewrite <- Hq. rewrite Hf. unfold HEADER_LEN at 1. destruct (Nat.ltb_spec (S fuel) 13) as [?|_]; [lia|]. cbv zeta.
    change ((HEADER_LEN + N.to_nat (unbe (firstn 2 (skipn 11 raw))))%nat) with (cut raw). rewrite L2.
    destruct (Nat.ltb_spec (S fuel) (S fuel)) as [?|_]; [lia|]. rewrite <- Hf, firstn_all, skipn_all.
    unfold bind at 1. rewrite Hr. destruct fuel; reflexivity. }
  unfold bind at 1, bind at 1. rewrite Hl. cbn [classify_all]. unfold bind. cbv beta.
  destruct (classify_record r (after_open ct sq e)) as [[[r'|]|x|x] e']; reflexivity.
Qed.

Lemma after_open_fields ct sq e : en_cfg (after_open ct sq e) = en_cfg e /\ en_rx (after_open ct sq e) = en_rx e /\
  en_penc (after_open ct sq e) = en_penc e /\ en_release (after_open ct sq e) = en_release e /\
  en_cn_recv (after_open ct sq e) = en_cn_recv e /\ en_peer_hs (after_open ct sq e) = en_peer_hs e.
Proof. unfold after_open. destruct (ct =? CT_APP); repeat split. Qed.

(** A fatal alert is an error; a close_notify is noted. *)
Lemma parse_alert e raw ep sq lvl desc rest : en_penc e = true -> linked E e -> bytes_ok raw ->
  authentic12 E e raw CT_ALERT ep sq (lvl :: desc :: rest) -> window_check (en_replay e) sq = true ->
  len (lvl :: desc :: rest) < 65536 ->
  eng12_parse_packet E raw e =
    if desc =? 0 then (Ok tt, set_en_cn_recv true (after_open CT_ALERT sq e))
    else if lvl =? 2 then (Err (EFatalAlert desc), after_open CT_ALERT sq e) else (Ok tt, after_open CT_ALERT sq e).
Proof.
  intros Pe Li B A W Ld. destruct (parse_one _ _ _ _ _ _ Pe Li B A W Ld) as (r & R1 & R2 & R3 & R4 & R5 & R6 & ->).
  destruct A as (cs & i & key & iv & v & payload & A1 & A2 & A3 & A4 & A5 & A6 & A7 & A8 & A9).
  pose proof (after_open_fields CT_ALERT sq e) as (F1 & F2 & F3 & F4 & F5 & F6).
  unfold classify_record, bind at 1, bind at 1, get. rewrite R1, R2, R4, F3, Pe.
  rewrite (proj2 (N.eqb_neq ep 0) A7). cbn [N.eqb CT_ALERT CT_CCS CT_HS Pos.eqb andb negb].
  destruct (desc =? 0); [reflexivity|]. destruct (lvl =? 2); reflexivity.
Qed.

(** A new handshake message on a released engine. *)
Lemma parse_renegotiation e raw ep sq d f fs : en_penc e = true -> linked E e -> bytes_ok raw ->
  authentic12 E e raw CT_HS ep sq d -> window_check (en_replay e) sq = true -> len d < 65536 ->
  p_frags12 8 d = f :: fs -> en_peer_hs e <= f_seq f -> (en_confirmed e = true \/ dupe_triggers_resend f = None) -> en_release e = true -> len (en_rx e) < c_max_rx (en_cfg e) ->
  exists e', eng12_parse_packet E raw e = (Err ERenegotiation, e') /\ e' = after_open CT_HS sq e.
Proof.
  intros Pe Li B A W Ld Hf Hs Hd Hr Hq. destruct (parse_one _ _ _ _ _ _ Pe Li B A W Ld) as (r & R1 & R2 & R3 & R4 & R5 & R6 & ->).
  destruct A as (cs & i & key & iv & v & payload & A1 & A2 & A3 & A4 & A5 & A6 & A7 & A8 & A9).
  pose proof (after_open_fields CT_HS sq e) as (F1 & F2 & F3 & F4 & F5 & F6).
  eexists. split; [|reflexivity].
  unfold classify_record, bind at 1, bind at 1, get. rewrite R1, R2, F3, Pe.
  rewrite (proj2 (N.eqb_neq ep 0) A7). cbn [N.eqb CT_ALERT CT_CCS CT_HS CT_APP Pos.eqb andb negb]. rewrite andb_false_r. unfold ret at 1.
  unfold insert_incoming, bind at 1, get. rewrite F1, F2. destruct (N.leb_spec (c_max_rx (en_cfg e)) (len (en_rx e))) as [?|_]; [lia|].
  assert (Hfh : first_hs r = Some f) by (unfold first_hs; rewrite R5, N.eqb_refl, Hf; reflexivity). rewrite Hfh.
  unfold insert_incoming_handshake, bind at 1, get. cbv zeta.
  assert (Hfs : first_some (fun r0 => match first_hs r0 with Some h => dupe_triggers_resend h | None => None end) [r] = dupe_triggers_resend f).
  { cbn [first_some]. rewrite Hfh. destruct (dupe_triggers_resend f); reflexivity. }
  rewrite Hfs.
  assert (Hw : (match dupe_triggers_resend f with
     | Some d0 => when ((d0 <? en_peer_hs (after_open CT_HS sq e)) && negb (en_confirmed (after_open CT_HS sq e))) (flight_resend E)
     | None => ret tt end) (after_open CT_HS sq e) = (Ok tt, after_open CT_HS sq e)).
  { destruct Hd as [Hd| ->]; [|reflexivity].
    replace (en_confirmed (after_open CT_HS sq e)) with true by (unfold after_open; cbn; symmetry; exact Hd).
    destruct (dupe_triggers_resend f); [|reflexivity]. rewrite andb_false_r. reflexivity. }
  unfold bind at 1. rewrite Hw. rewrite F6, F3, F4, Hr, R2, Pe. destruct (N.ltb_spec (f_seq f) (en_peer_hs e)) as [?|_]; [lia|].
  rewrite (proj2 (N.eqb_neq ep 0) A7). cbn [andb]. destruct (N.leb_spec (en_peer_hs e) (f_seq f)) as [_|?]; [reflexivity|lia].
Qed.

(** ** Records sealed by the peer *)

(** [peers a b]: same suite, [b] reads with the key and iv [a] writes with. *)
Definition peers (a b : Eng12) : Prop :=
  en_suite b = en_suite a /\ peer_cipher b = own_cipher a /\ peer_iv b = own_iv a.

Lemma sealed_authentic a b ct sq d pl a' :
  seal_open_ok E -> seal12_len_ok E -> seal_bytes_ok E -> rand_ok E ->
  linked E a -> keyed E a -> peers a b -> bytes_ok d -> ct < 256 -> sq < 2 ^ 48 -> len pl < 65536 ->
  seal_record E ct sq d a = (Ok pl, a') ->
  let raw := s_rec12 ct V_DTLS12 1 sq pl in
  bytes_ok raw /\ len d < 65536 /\ authentic12 E b raw ct 1 sq d.
Proof.
  intros SO SL SB RO Li (cs & i & ms & cr & sr & kb & K1 & K2 & K3 & K4 & K5 & K6 & K7 & K8 & K9 & K10) (P1 & P2 & P3) Bd Hct Hsq Lpl H raw.
  unfold linked in Li. rewrite K1 in Li. destruct Li as (i' & L1 & L2 & L3). rewrite K2 in L1. injection L1 as <-.
  pose proof K6 as Lkb. apply prf_length in Lkb.
  unfold seal_record, bind at 1, get in H. destruct (own_iv a) as [iv|] eqn:Hiv; [|discriminate].
  assert (Hivl : length iv = s12_iv i).
  { unfold own_iv in Hiv. destruct (en_client a); rewrite ?K9, ?K10 in Hiv; injection Hiv as <-; apply slice_len; lia. }
  assert (Hc : exists key, own_cipher a = Some (cs, key)) by (unfold own_cipher; destruct (en_client a); eauto).
  destruct Hc as (key & Hc). rewrite Hc, L2 in H. cbn [cipher_seal] in H.
  assert (X : exists ex c nonce, pl = ex ++ c /\ length ex = s12_enl i /\ bytes_ok ex /\ record_nonce (s12_enl i) iv 1 sq ex = Some nonce /\
    e_seal E cs key nonce (aad12 ct 1 sq (u16 (len d))) d = Some c).
  { destruct (SOK _ _ K2) as [[S1 S2]|[S1 S2]]; rewrite S2 in *.
    - unfold bind at 1 in H. assert (Hrb : rand_bytes E 8 a = (Ok (e_rand E (en_orc a) 8), set_en_orc (en_orc a + 1) a)) by reflexivity. rewrite Hrb in H.
      set (t := e_rand E (en_orc a) 8) in H. destruct (record_nonce 8 iv 1 sq t) as [nonce|] eqn:Hn; [|discriminate].
      unfold cipher_seal in H. destruct (e_seal E cs key nonce _ _) as [c|] eqn:Hs; [|discriminate]. injection H as <- _.
      exists t, c, nonce. repeat split; auto; apply RO.
    - unfold bind at 1, ret at 1 in H. destruct (record_nonce 0 iv 1 sq []) as [nonce|] eqn:Hn; [|discriminate].
      unfold cipher_seal in H. destruct (e_seal E cs key nonce _ _) as [c|] eqn:Hs; [|discriminate]. injection H as <- _.
      exists [], c, nonce. repeat split; auto. constructor. }
  destruct X as (ex & c & nonce & -> & X1 & X2 & X3 & X4).
  pose proof (SL _ _ _ _ _ _ _ K2 X4) as Lc. pose proof (SB _ _ _ _ _ _ Bd X4) as Bc.
  assert (Ld : len d < 65536) by (unfold len in *; rewrite app_length in Lpl; lia).
  assert (Lt : len (ex ++ c) = len d + N.of_nat (s12_enl i + s12_tag i)) by (unfold len; rewrite app_length; lia).
  assert (Bp : bytes_ok (ex ++ c)) by (apply Forall_app; split; assumption).
  assert (Hr : is_record12 raw ct V_DTLS12 1 sq (ex ++ c)).
  { apply s_rec12_layout. unfold rec_fields. repeat split; cbn; lia. }
  split; [|split; [exact Ld|]].
  { unfold raw, s_rec12. do 5 (apply Forall_app; split; [apply be_ok|]); exact Bp. }
  exists cs, i, key, iv, V_DTLS12, (ex ++ c). rewrite P1.
  split; [exact K1|]. split; [exact K2|].
  split; [rewrite Hc in P2; exact P2|].
  split; [exact P3|].
  split; [exact Hr|]. split; [auto|]. split; [discriminate|]. split; [rewrite app_length; lia|]. cbv zeta.
  assert (Hn : N.of_nat (length (ex ++ c)) - u16 (N.of_nat (s12_enl i + s12_tag i)) = u16 (len d)).
  { fold (len (ex ++ c)). unfold u16. rewrite Lt in *. rewrite !N.mod_small by lia. lia. }
  rewrite Hn.
  assert (Haad : be 2 1 ++ be 6 sq ++ [ct; 254; 253] ++ be 2 (u16 (len d)) = aad12 ct 1 sq (u16 (len d))).
  { unfold aad12. cbn [app]. rewrite <- ?app_assoc. reflexivity. }
  rewrite Haad. unfold record_nonce in X3.
  destruct (SOK _ _ K2) as [[S1 S2]|[S1 S2]]; rewrite S2 in *.
  - right. split; [reflexivity|]. split; [congruence|]. destruct (Nat.eqb _ _); [|discriminate]. injection X3 as <-.
    rewrite firstn_app, skipn_app, X1, Nat.sub_diag, firstn_O, skipn_O, app_nil_r, (firstn_all2 ex), (skipn_all2 ex) by lia.
    apply SO, X4.
  - left. split; [reflexivity|]. split; [congruence|]. destruct ex; [|discriminate]. destruct (Nat.eqb _ _); [|discriminate]. injection X3 as <-.
    apply SO, X4.
Qed.
End Open.

(** ** Endpoints *)

Section Endpoint.
Variable E : Env.

(** Nothing left to do: closed, or established with no queued write and no
    unanswered close_notify. *)
Definition settled (s : End12) : Prop :=
  end_closed s = true \/ (end_established s /\ en_cn_recv (end_eng s) = false /\ end_queued s = []).

Lemma packet_quiet p s o : settled s -> eng12_parse_packet E p (end_eng s) = (o, end_eng s) -> o = Ok tt \/ o = Err ETransient ->
  end12_call E (Packet p) s = (Ok None, s).
Proof.
  intros S H Ho. destruct s as [c|c]; cbn [end_eng end_closed end_established end_queued] in *; unfold end12_call, client12_call, server12_call, no_output, client12_handle_packet, server12_handle_packet.
  - assert (Hz : ceng (eng12_parse_packet E p) c = (o, c)).
    { unfold ceng, zoom. rewrite H. destruct c; reflexivity. }
    assert (Hp : c_make_progress E c = (Ok tt, c)).
    { unfold c_make_progress. cbn [c_progress]. unfold bind at 1, get. destruct S as [S|(S1 & S2 & S3)].
      - assert (Hst : cl_state c = CS_Closed) by (cbn in S; destruct (cl_state c); try discriminate S; reflexivity). rewrite Hst. reflexivity.
      - cbn [end_established end_eng end_queued] in S1, S2, S3. rewrite S1. cbn [c_step]. unfold c_await_application_data, bind at 1, bind at 1, get. rewrite S2, S3.
        destruct c; cbn in S3 |- *; subst; reflexivity. }
    unfold public, bind at 1, bind at 1. rewrite Hz. destruct Ho as [->| ->]; [rewrite Hp|]; reflexivity.
  - assert (Hz : seng (eng12_parse_packet E p) c = (o, c)).
    { unfold seng, zoom. rewrite H. destruct c; reflexivity. }
    assert (Hp : s_make_progress E c = (Ok tt, c)).
    { unfold s_make_progress. cbn [s_progress]. unfold bind at 1, get. destruct S as [S|(S1 & S2 & S3)].
      - assert (Hst : sv_state c = SS_Closed) by (cbn in S; destruct (sv_state c); try discriminate S; reflexivity). rewrite Hst. reflexivity.
      - cbn [end_established end_eng end_queued] in S1, S2, S3. rewrite S1. cbn [s_step]. unfold s_await_application_data, bind at 1, bind at 1, get. rewrite S2, S3.
        destruct c; cbn in S3 |- *; subst; reflexivity. }
    unfold public, bind at 1, bind at 1. rewrite Hz. destruct Ho as [->| ->]; [rewrite Hp|]; reflexivity.
Qed.
Lemma packet_error p s x e' : eng12_parse_packet E p (end_eng s) = (Err x, e') -> x <> ETransient ->
  end12_call E (Packet p) s = (Err x, set_end_eng e' s).
Proof.
  intros H Hx. destruct s as [c|c]; cbn [end_eng] in H; unfold end12_call, client12_call, server12_call, no_output, client12_handle_packet, server12_handle_packet, public, bind at 1, bind at 1, ceng, seng, zoom; rewrite H; destruct x; try contradiction; reflexivity.
Qed.
End Endpoint.

(** ** Where a fatal alert comes from *)

Section Fatal.
Variable E : Env.
Hypothesis SOK : suites12_ok E.
Hypothesis OS : open_shrinks E.

(** [m] never fails with a fatal alert. *)
Definition mild {S A} (m : M S A) : Prop := forall s d, fst (m s) <> Err (EFatalAlert d).
Lemma mild_ret {S A} (a : A) : mild (@ret S A a).
Proof. intros s d. discriminate. Qed.
Lemma mild_fail {S A} x : (forall d, x <> EFatalAlert d) -> mild (@fail S A x).
Proof. intros H s d [= K]. exact (H d K). Qed.
Lemma mild_panic {S A} n : mild (@panic S A n).
Proof. intros s d. discriminate. Qed.
Lemma mild_get {S} : mild (@get S).
Proof. intros s d. discriminate. Qed.
Lemma mild_modify {S} f : mild (@modify S f).
Proof. intros s d. discriminate. Qed.
Lemma mild_bind {S A B} (m : M S A) (k : A -> M S B) : mild m -> (forall a, mild (k a)) -> mild (bind m k).
Proof. intros H K s d. unfold bind. specialize (H s). destruct (m s) as [[a|x|x] s']; [apply K|intros [= ->]; eapply H; reflexivity|discriminate]. Qed.
Lemma mild_when {S} b (m : M S unit) : mild m -> mild (when b m).
Proof. intro H. unfold when. destruct b; [exact H|apply mild_ret]. Qed.
Lemma mild_iter {S A} (f : A -> M S unit) l : (forall a, mild (f a)) -> mild (iterM f l).
Proof. intro H. induction l as [|a l IH]; cbn [iterM]; [apply mild_ret|]. apply mild_bind; auto. Qed.
Lemma mild_zoom {S T A} (g : S -> T) (p : T -> S -> S) (m : M T A) : mild m -> mild (zoom g p m).
Proof. intros H s d. unfold zoom. specialize (H (g s) d). destruct (m (g s)) as [r t]. exact H. Qed.
Lemma mild_wp {S A} (m : M S A) s d : mild m -> wp m (fun o _ => o <> Err (EFatalAlert d)) s.
Proof. intros H. apply wp_intro. intros r s' K. specialize (H s d). rewrite K in H. exact H. Qed.
Lemma mild_gets {S A} (f : S -> A) : mild (gets f).
Proof. intros s d. discriminate. Qed.
Ltac mild leaf := repeat first [leaf | apply mild_gets | apply mild_bind; [|intros] | apply mild_ret | apply mild_fail; discriminate | apply mild_panic
  | apply mild_get | apply mild_modify | apply mild_when | apply mild_iter; intro
  | match goal with |- mild (match ?x with _ => _ end) => destruct x end].
Lemma mild_draw : mild draw.
Proof. unfold draw. mild ltac:(solve [apply mild_ret]). Qed.
Lemma mild_seal ct sq f : mild (seal_record E ct sq f).
Proof. unfold seal_record, rand_bytes. mild ltac:(apply mild_draw). Qed.
Lemma mild_cri ct ep sv fn f : mild (create_record_inner E ct ep sv fn f).
Proof. unfold create_record_inner. mild ltac:(apply mild_seal). Qed.
Lemma mild_resend : mild (flight_resend E).
Proof.
  assert (H : forall rp l b, mild (resend_loop E rp b l)).
  { intros rp l. induction l as [|[[ct ep] f] l IH]; intro b; cbn [resend_loop]; mild ltac:(first [apply mild_cri|apply IH]). }
  unfold flight_resend. mild ltac:(apply H).
Qed.
Lemma mild_insert inc : mild (insert_incoming E inc).
Proof.
  unfold insert_incoming, insert_incoming_handshake, insert_incoming_non_handshake, bsearch.
  mild ltac:(first [apply mild_resend | apply mild_draw]).
Qed.
Lemma mild_rec_parse raw : mild (rec_parse E raw).
Proof. unfold rec_parse, decryption_aad_and_nonce. mild ltac:(solve [apply mild_ret]). Qed.
Lemma mild_parse_loop fuel : forall room p, mild (parse_loop E fuel room p).
Proof. induction fuel as [|fuel IH]; intros room p; cbn [parse_loop]; mild ltac:(first [apply mild_rec_parse|apply IH]). Qed.

(** A record that parses with receive protection on is unprotected or authentic. *)
Definition legit (p : bytes) (e : Eng12) (r : Rec12) : Prop :=
  r_epoch r = 0 \/ exists raw, record_of p raw /\ authentic12 E e raw (r_ctype r) (r_epoch r) (r_seq r) (r_frag r).
Lemma rec_parse_legit raw e : en_penc e = true -> linked E e -> keyed E e -> bytes_ok raw -> record_of raw raw ->
  wp (rec_parse E raw) (fun o e' => same_keys12 e e' /\ en_penc e' = true /\ match o with Ok (Some r) => legit raw e r | _ => True end) e.
Proof.
  intros Pe Li K B Rof. unfold rec_parse.
  assert (Z : same_keys12 e e /\ en_penc e = true /\ True) by (repeat split; exact Pe).
  destruct (p_parsed12 0 raw) as [r|] eqn:Hp; [|apply wp_ret; exact Z].
  apply wp_bind, wp_get. rewrite Pe. cbn [negb]. rewrite orb_false_r.
  destruct (N.eqb_spec (r_epoch r) 0) as [E0|E0]; [apply wp_ret; repeat split; auto; left; exact E0|].
  destruct (negb _); [apply wp_ret; exact Z|].
  destruct (N.ltb_spec (r_length r) (N.of_nat (en_minp e))) as [Hl|Hl]; [apply wp_ret; exact Z|].
  unfold decryption_aad_and_nonce. apply wp_bind, wp_bind, wp_get.
  destruct (peer_iv e) as [iv|] eqn:Hiv; [|apply wp_panic; exact Z].
  destruct (record_nonce _ _ _ _ _) as [nonce|] eqn:Hn; [|apply wp_panic; exact Z].
  apply wp_ret. destruct (cipher_open E (peer_cipher e) nonce _ _) as [pt|] eqn:Ho.
  2:{ destruct (en_release e); [apply wp_ret|apply wp_fail]; exact Z. }
  destruct (parsed_shape _ _ B Hp) as (_ & Hlen & F & V & _).
  assert (Lraw : length raw = (13 + length (r_frag r))%nat).
  { rewrite (parsed_record _ _ _ B Rof Hp). unfold s_rec12. rewrite !app_length, !be_length. lia. }
  assert (Lenl : (en_enl e <= length (r_frag r))%nat).
  { pose proof (linked_minp E e Li). rewrite Hlen in Hl. unfold len in Hl. lia. }
  assert (Lpt : len pt < 65536).
  { apply (cipher_open_shrinks E OS) in Ho. unfold HEADER_LEN in Ho. rewrite skipn_length, Lraw in Ho.
    destruct F as (_ & _ & _ & _ & F). unfold len in *. lia. }
  destruct (reparse raw r (en_enl e) pt B Hp Lenl Lpt) as [Hre _].
  assert (A : authentic12 E e raw (r_ctype r) (r_epoch r) (r_seq r) pt).
  { apply opens_authentic; auto. exists r, iv, nonce. repeat split; auto. }
  apply wp_bind, wp_modify. apply wp_bind. unfold when.
  destruct (r_ctype r =? CT_APP); [apply wp_modify|apply wp_ret]; rewrite Hre; apply wp_ret; (split; [repeat split|split; [exact Pe|]]);
    right; exists raw; (split; [exact Rof|exact A]).
Qed.
Lemma authentic_same a b raw ct ep sq d : same_keys12 a b -> authentic12 E b raw ct ep sq d -> authentic12 E a raw ct ep sq d.
Proof. intros (S1 & S2 & S3 & S4 & S5). unfold authentic12. rewrite S1, S2, S5. auto. Qed.
Lemma parse_loop_legit fuel : forall room p e, en_penc e = true -> linked E e -> keyed E e -> bytes_ok p ->
  wp (parse_loop E fuel room p) (fun o e' => same_keys12 e e' /\ en_penc e' = true /\ match o with Ok rs => Forall (legit p e) rs | _ => True end) e.
Proof.
  induction fuel as [|fuel IH]; intros room p e Pe Li K B; cbn [parse_loop];
    assert (Z : same_keys12 e e /\ en_penc e = true /\ True) by (repeat split; exact Pe);
    destruct p as [|b p]; try (apply wp_ret; repeat split; auto; constructor); [apply wp_panic; exact Z|].
  set (q := b :: p) in *. clearbody q. clear b p.
  destruct (Nat.ltb_spec (length q) HEADER_LEN) as [H1|H1]; [apply wp_fail; exact Z|]. cbv zeta. unfold HEADER_LEN in *.
  change ((13 + N.to_nat (unbe (firstn 2 (skipn 11 q))))%nat) with (cut q).
  destruct (Nat.ltb_spec (length q) (cut q)) as [H2|H2]; [apply wp_fail; exact Z|].
  assert (Rof : record_of q (firstn (cut q) q)) by (constructor; assumption).
  pose proof (record_of_refl _ _ Rof) as Rof'.
  assert (Bs : bytes_ok (skipn (cut q) q)).
  { unfold bytes_ok in *. rewrite <- (firstn_skipn (cut q) q) in B. apply Forall_app in B. apply B. }
  apply wp_bind. eapply wp_mono; [apply (rec_parse_legit _ e Pe Li K (record_of_bytes _ _ B Rof) Rof')|]. cbv beta.
  intros o e1 (S1 & P1 & U). destruct o as [o|x|x]; [|auto..].
  assert (Tail : forall room', wp (parse_loop E fuel room' (skipn (cut q) q)) (fun o e' => same_keys12 e e' /\ en_penc e' = true /\ match o with Ok rs => Forall (legit q e) rs | _ => True end) e1).
  { intro room'. eapply wp_mono; [apply (IH room' _ e1 P1 (sk_linked _ _ _ S1 Li) (sk_keyed _ _ _ S1 K) Bs)|]. cbv beta. intros o' e2 (S2 & P2 & U2).
    split; [eapply (po_trans _ sk_po); eauto|]. split; [exact P2|]. destruct o' as [rs|x|x]; auto.
    eapply Forall_impl; [|exact U2]. intros r [X|(raw & X1 & X2)]; [left; exact X|right]. exists raw.
    split; [apply record_next; assumption|eapply authentic_same; eauto]. }
  destruct o as [r|]; [|apply Tail].
  destruct room as [|room]; [apply wp_fail; auto|].
  apply wp_bind. eapply wp_mono; [apply Tail|]. cbv beta. intros o' e2 (S2 & P2 & U2). destruct o' as [rs|x|x]; [|auto..].
  apply wp_ret. repeat (split; [assumption|]). constructor; [|exact U2].
  destruct U as [X|(raw & X1 & X2)]; [left; exact X|right]. exists (firstn (cut q) q). split; [exact Rof|].
  pose proof (record_of_record _ _ _ Rof' X1) as ->. exact X2.
Qed.
Lemma classify_fatal rs : forall e, en_penc e = true ->
  wp (classify_all rs) (fun o e' => match o with
    | Err x => exists desc r rest, x = EFatalAlert desc /\ In r rs /\ r_epoch r <> 0 /\ r_ctype r = CT_ALERT /\ r_frag r = 2 :: desc :: rest
    | _ => True end) e.
Proof.
  induction rs as [|r rs IH]; intros e Pe; cbn [classify_all]; [apply wp_ret; exact I|].
  apply wp_bind. apply (wp_mono _ (fun o e' => en_penc e' = true /\ match o with
    | Err x => exists desc rest, x = EFatalAlert desc /\ r_epoch r <> 0 /\ r_ctype r = CT_ALERT /\ r_frag r = 2 :: desc :: rest
    | _ => True end)).
  { unfold classify_record. apply wp_bind, wp_get. rewrite Pe. cbn [negb].
    destruct (_ && _ && true); [apply wp_ret; auto|]. destruct (_ && _); [apply wp_ret; auto|].
    destruct (N.eqb_spec (r_ctype r) CT_ALERT) as [A|A].
    - destruct (N.eqb_spec (r_epoch r) 0) as [E0|E0]; [apply wp_ret; auto|]. destruct (r_frag r) as [|lvl [|desc rest]]; [apply wp_ret; auto..|].
      destruct (desc =? 0); [apply wp_bind, wp_modify, wp_ret; auto|].
      destruct (N.eqb_spec lvl 2) as [->|]; [apply wp_fail|apply wp_ret; auto]. split; [exact Pe|]. eauto 10.
    - destruct (_ && _); apply wp_ret; auto. }
  intros o e1 [P1 U]. destruct o as [o|x|x]; [|destruct U as (desc & rest & U); exists desc, r, rest; cbn [In]; tauto|exact I].
  apply wp_bind. eapply wp_mono; [apply (IH e1 P1)|]. cbv beta. intros o' e2 U2.
  destruct o' as [rs'|x|x]; [apply wp_ret; exact I| |exact I]. destruct U2 as (desc & r' & rest & X1 & X2 & X3). exists desc, r', rest. cbn [In]. tauto.
Qed.

Lemma parse_fatal p e d e' : en_penc e = true -> linked E e -> keyed E e -> bytes_ok p ->
  eng12_parse_packet E p e = (Err (EFatalAlert d), e') ->
  exists raw ep sq rest, record_of p raw /\ authentic12 E e raw CT_ALERT ep sq (2 :: d :: rest).
Proof.
  intros Pe Li K B H.
  assert (W : wp (eng12_parse_packet E p) (fun o _ => o = Err (EFatalAlert d) -> exists raw ep sq rest, record_of p raw /\ authentic12 E e raw CT_ALERT ep sq (2 :: d :: rest)) e).
  { unfold eng12_parse_packet, records_parse. apply wp_bind, wp_bind.
    pose proof (mild_wp _ e d (mild_parse_loop (length p) 8 p)) as Mp.
    apply (wp_mono _ (fun o e1 => o <> Err (EFatalAlert d) /\ en_penc e1 = true /\ match o with Ok rs => Forall (legit p e) rs | _ => True end)).
    { apply wp_conj; [exact Mp|]. eapply wp_mono; [apply (parse_loop_legit _ _ _ _ Pe Li K B)|]. cbv beta. intros o e1 (_ & X). exact X. }
    intros o e1 (U0 & P1 & U). destruct o as [rs|x|x]; [|intro; congruence|discriminate].
    eapply wp_mono; [apply (classify_fatal rs e1 P1)|]. cbv beta. intros o' e2 U2. destruct o' as [rs'|x|x]; [| |discriminate].
    - destruct rs'; [apply wp_ret; discriminate|]. intro X. exfalso. exact (mild_insert _ _ _ X).
    - intros [= ->]. destruct U2 as (desc & r & rest & [= <-] & X1 & X2 & X3 & X4). rewrite Forall_forall in U.
      destruct (U r X1) as [X|(raw & Y1 & Y2)]; [contradiction|]. rewrite X3, X4 in Y2. eauto 10. }
  unfold wp in W. rewrite H in W. apply W. reflexivity.
Qed.

Lemma Err12_dec_transient (x : error) : x = ETransient \/ x <> ETransient.
Proof. destruct x; first [left; reflexivity | right; discriminate]. Qed.
Lemma progress_c c d : cl_state c = CS_AwaitApplicationData \/ cl_state c = CS_Closed -> fst (c_make_progress E c) <> Err (EFatalAlert d).
Proof.
  intros Hs. assert (Cl : forall f c0, cl_state c0 = CS_Closed -> c_progress E (S f) c0 = (Ok tt, c0)).
  { intros f c0 H. cbn [c_progress]. unfold bind at 1, get. rewrite H. reflexivity. }
  assert (St : forall f, c_progress E (S f) = (let! c := get in let! st := c_step E (cl_state c) in
    if cstate12_eqb (cl_state c) st then ret tt else modify (set_cl_state st) ;;; c_progress E f)) by reflexivity.
  unfold c_make_progress. destruct Hs as [Hs|Hs]; [|rewrite Cl by exact Hs; discriminate].
  apply (wp_run (c_progress E 40) (fun o _ => o <> Err (EFatalAlert d)) c (fst (c_progress E 40 c)) (snd (c_progress E 40 c))); [apply surjective_pairing|].
  rewrite St. apply wp_bind, wp_get. rewrite Hs. cbn [c_step]. apply wp_bind.
  apply (wp_mono _ (fun o _ => match o with Ok st => st = CS_AwaitApplicationData \/ st = CS_Closed | Err x => x <> EFatalAlert d | _ => True end)).
  - unfold c_await_application_data. apply wp_bind, wp_get.
    assert (Mc : forall ct f, mild (ceng (create_record E ct 1 false f))) by (intros; apply mild_zoom, mild_cri).
    destruct (en_cn_recv (cl_eng c)).
    + apply wp_bind. unfold discard_pending_writes, ceng at 1. apply wp_zoom, wp_modify. apply wp_bind. eapply wp_mono; [apply (mild_wp _ _ d), Mc|].
      cbv beta. intros o s Ho. destruct o; [apply wp_ret; auto|congruence|exact I].
    + apply wp_bind, wp_modify, wp_bind. eapply wp_mono; [apply (mild_wp _ _ d), mild_iter; intro; apply Mc|].
      cbv beta. intros o s Ho. destruct o; [apply wp_ret; auto|congruence|exact I].
  - intros o c1 Ho. destruct o as [st|x|x]; [|congruence|discriminate].
    destruct Ho as [->| ->]; [apply wp_ret; discriminate|].
    cbn [cstate12_eqb]. apply wp_bind, wp_modify. unfold wp. rewrite Cl by reflexivity. discriminate.
Qed.
Lemma progress_s c d : sv_state c = SS_AwaitApplicationData \/ sv_state c = SS_Closed -> fst (s_make_progress E c) <> Err (EFatalAlert d).
Proof.
  intros Hs. assert (Cl : forall f c0, sv_state c0 = SS_Closed -> s_progress E (S f) c0 = (Ok tt, c0)).
  { intros f c0 H. cbn [s_progress]. unfold bind at 1, get. rewrite H. reflexivity. }
  assert (St : forall f, s_progress E (S f) = (let! c := get in let! st := s_step E (sv_state c) in
    if sstate12_eqb (sv_state c) st then ret tt else modify (set_sv_state st) ;;; s_progress E f)) by reflexivity.
  unfold s_make_progress. destruct Hs as [Hs|Hs]; [|rewrite Cl by exact Hs; discriminate].
  apply (wp_run (s_progress E 40) (fun o _ => o <> Err (EFatalAlert d)) c (fst (s_progress E 40 c)) (snd (s_progress E 40 c))); [apply surjective_pairing|].
  rewrite St. apply wp_bind, wp_get. rewrite Hs. cbn [s_step]. apply wp_bind.
  apply (wp_mono _ (fun o _ => match o with Ok st => st = SS_AwaitApplicationData \/ st = SS_Closed | Err x => x <> EFatalAlert d | _ => True end)).
  - unfold s_await_application_data. apply wp_bind, wp_get.
    assert (Mc : forall ct f, mild (seng (create_record E ct 1 false f))) by (intros; apply mild_zoom, mild_cri).
    destruct (en_cn_recv (sv_eng c)).
    + apply wp_bind. unfold discard_pending_writes, seng at 1. apply wp_zoom, wp_modify. apply wp_bind. eapply wp_mono; [apply (mild_wp _ _ d), Mc|].
      cbv beta. intros o s Ho. destruct o; [apply wp_ret; auto|congruence|exact I].
    + apply wp_bind, wp_modify, wp_bind. eapply wp_mono; [apply (mild_wp _ _ d), mild_iter; intro; apply Mc|].
      cbv beta. intros o s Ho. destruct o; [apply wp_ret; auto|congruence|exact I].
  - intros o c1 Ho. destruct o as [st|x|x]; [|congruence|discriminate].
    destruct Ho as [->| ->]; [apply wp_ret; discriminate|].
    cbn [sstate12_eqb]. apply wp_bind, wp_modify. unfold wp. rewrite Cl by reflexivity. discriminate.
Qed.

(** On an established or closed endpoint the rest of the call is mild. *)
Lemma packet_fatal p s d s' : end_established s \/ end_closed s = true -> en_penc (end_eng s) = true ->
  linked E (end_eng s) -> keyed E (end_eng s) -> bytes_ok p ->
  end12_call E (Packet p) s = (Err (EFatalAlert d), s') ->
  exists raw ep sq rest, record_of p raw /\ authentic12 E (end_eng s) raw CT_ALERT ep sq (2 :: d :: rest).
Proof.
  intros Es Pe Li K B H. destruct (eng12_parse_packet E p (end_eng s)) as [o e'] eqn:Hp.
  destruct o as [[]|x|x].
  - exfalso.
    destruct s as [c|c]; cbn [end_eng end_established end_closed] in *; unfold end12_call, client12_call, server12_call, no_output, client12_handle_packet, server12_handle_packet in H.
    + assert (Hm : fst (c_make_progress E (set_cl_eng e' c)) <> Err (EFatalAlert d)) by (apply progress_c; cbn; destruct Es as [Es|Es]; [left; exact Es|right]; destruct (cl_state c); try discriminate Es; reflexivity).
      unfold public, bind at 1, bind at 1, ceng at 1, zoom at 1 in H. rewrite Hp in H. destruct (c_make_progress E (set_cl_eng e' c)) as [[u|x|x] c'];
        cbn [fst] in Hm; [discriminate| |discriminate]. destruct x; try discriminate; injection H as -> _; apply Hm; reflexivity.
    + assert (Hm : fst (s_make_progress E (set_sv_eng e' c)) <> Err (EFatalAlert d)) by (apply progress_s; cbn; destruct Es as [Es|Es]; [left; exact Es|right]; destruct (sv_state c); try discriminate Es; reflexivity).
      unfold public, bind at 1, bind at 1, seng at 1, zoom at 1 in H. rewrite Hp in H. destruct (s_make_progress E (set_sv_eng e' c)) as [[u|x|x] c'];
        cbn [fst] in Hm; [discriminate| |discriminate]. destruct x; try discriminate; injection H as -> _; apply Hm; reflexivity.
  - destruct (Err12_dec_transient x) as [->|Hx]; [exfalso|].
    + destruct s as [c|c]; cbn [end_eng] in Hp; unfold end12_call, client12_call, server12_call, no_output, client12_handle_packet, server12_handle_packet, public, bind at 1, bind at 1, ceng, seng, zoom in H; rewrite Hp in H; discriminate.
    + rewrite (packet_error E p s x e' Hp Hx) in H. injection H as -> _. eapply parse_fatal; eauto.
  - destruct s as [c|c]; cbn [end_eng] in Hp; unfold end12_call, client12_call, server12_call, no_output, client12_handle_packet, server12_handle_packet, public, bind at 1, bind at 1, ceng, seng, zoom in H; rewrite Hp in H; discriminate.
Qed.
End Fatal.

(** ** The replay window over a history *)

Section Replay.
Variable E : Env.

Definition Rw (a b : Eng12) : Prop := forall seen, window_inv (en_replay a) seen ->
  exists seen', incl seen seen' /\ window_inv (en_replay b) seen'.
Lemma Rw_same a b : en_replay b = en_replay a -> Rw a b.
Proof. intros H seen W. exists seen. rewrite H. split; [apply incl_refl|exact W]. Qed.
Lemma Rw_po : preorder Rw.
Proof.
  split; [intro; apply Rw_same; reflexivity|]. intros a b c H K seen W. destruct (H _ W) as (s1 & I1 & W1). destruct (K _ W1) as (s2 & I2 & W2).
  exists s2. split; [eapply incl_tran; eauto|exact W2].
Qed.
Lemma Rq_Rw a b : Rq a b -> Rw a b.
Proof. intros (_ & Q & _). apply Rw_same, Q. Qed.
Lemma Rq_Rw_pres {A} (m : M Eng12 A) : pres Rq m -> pres Rw m.
Proof. intros H s. apply Rq_Rw, H. Qed.
Lemma Rw_rec_parse raw : pres Rw (rec_parse E raw).
Proof.
  intro e. apply (wp_run (rec_parse E raw) (fun _ b => Rw e b) e (fst (rec_parse E raw e))); [apply surjective_pairing|].
  assert (Z : Rw e e) by apply Rw_po. unfold rec_parse.
  destruct (p_parsed12 0 raw) as [r|]; [|apply wp_ret; exact Z]. apply wp_bind, wp_get.
  destruct (_ || _); [apply wp_ret; exact Z|]. destruct (window_check (en_replay e) (r_seq r)) eqn:Hc; cbn [negb]; [|apply wp_ret; exact Z].
  destruct (_ <? _); [apply wp_ret; exact Z|]. unfold decryption_aad_and_nonce. apply wp_bind, wp_bind, wp_get.
  destruct (peer_iv e); [|apply wp_panic; exact Z]. destruct (record_nonce _ _ _ _ _); [|apply wp_panic; exact Z]. apply wp_ret.
  destruct (cipher_open _ _ _ _ _); [|destruct (en_release e); [apply wp_ret|apply wp_fail]; exact Z].
  apply wp_bind, wp_modify, wp_bind.
  assert (Y : forall b, en_replay b = window_update (en_replay e) (r_seq r) -> Rw e b).
  { intros e9 Hb seen W. exists (r_seq r :: seen). split; [apply incl_tl, incl_refl|]. rewrite Hb. apply window_update_inv; assumption. }
  unfold when. destruct (_ =? _); [apply wp_modify|apply wp_ret]; (destruct (p_parsed12 _ _); [apply wp_ret|apply wp_fail]; apply Y; reflexivity).
Qed.
Lemma Rw_parse p : pres Rw (eng12_parse_packet E p).
Proof.
  unfold eng12_parse_packet, records_parse.
  assert (L : forall fuel room p, pres Rw (parse_loop E fuel room p)).
  { induction fuel as [|fuel IH]; intros room q; cbn [parse_loop]; presauto Rw_po ltac:(first [apply Rw_rec_parse | apply IH]). }
  presauto Rw_po ltac:(first [apply L
    | apply (fr_classify_all Rw Rw_po); intros; apply Rw_same; reflexivity
    | apply (fr_insert E Rw Rw_po); intros; apply Rw_same; reflexivity]).
Qed.
Lemma Rw_frame : eng_frame E Rw.
Proof.
  pose proof (Rq_mid E) as F. destruct F as [[F1 F2 F3 F4 F5 F6 F7 F8 F9 F10 F11 F12 F13] F14 F15].
  constructor; [constructor|..]; try (apply Rq_Rw_pres; assumption); try (intros; apply Rq_Rw_pres; auto; fail).
  - exact Rw_po.
  - intros. apply Rq_Rw, F14.
  - intros. apply Rq_Rw, F2.
  - intros mt mk H. apply (fr_create_handshake E Rw Rw_po); try exact H; intros; apply Rw_same; reflexivity.
  - unfold enable_peer_encryption. presauto Rw_po ltac:(first [apply Rw_parse | apply pres_modify; intros; apply Rw_same; reflexivity]).
  - intros v s. apply Rw_same. reflexivity.
  - exact Rw_parse.
  - intros. apply Rq_Rw_pres, Rq_poll.
  - intros. apply Rq_Rw_pres, Rq_timeout.
Qed.

Lemma new_window cfg auth s : start12 E cfg auth s -> window_inv (en_replay (end_eng s)) [].
Proof. intro H. destruct (start_eng E cfg auth s H) as (b & o & -> & _). apply window_inv_new. Qed.

Lemma p_be_spec k l n r : p_be k l = Some (n, r) -> n = unbe (firstn k l) /\ r = skipn k l /\ (k <= length l)%nat.
Proof. unfold p_be, take. destruct (Nat.leb_spec k (length l)) as [H|H]; [|discriminate]. intros [= <- <-]. auto. Qed.
Lemma parsed_seq k l r : p_parsed12 k l = Some r -> r_seq r = unbe (firstn 6 (skipn 5 l)) /\ (11 <= length l)%nat.
Proof.
  unfold p_parsed12, p_rec12, p_u8, p_u16, p_u48.
  destruct (p_be 1 l) as [[ct l1]|] eqn:H1; [|discriminate]. apply p_be_spec in H1. destruct H1 as (_ & -> & L1).
  destruct (p_be 2 _) as [[v l2]|] eqn:H2; [|discriminate]. apply p_be_spec in H2. destruct H2 as (_ & -> & L2). destruct (negb _); [discriminate|].
  destruct (p_be 2 _) as [[ep l3]|] eqn:H3; [|discriminate]. apply p_be_spec in H3. destruct H3 as (_ & -> & L3). destruct (_ && _); [discriminate|].
  destruct (p_be 6 _) as [[sq l4]|] eqn:H4; [|discriminate]. apply p_be_spec in H4. destruct H4 as (-> & -> & L4).
  destruct (p_be 2 _) as [[n l5]|]; [|discriminate]. destruct (take _ _) as [[f re]|]; [|discriminate]. intros [= <-]. cbn [r_seq].
  rewrite !skipn_length in *. split; [|lia]. do 5 (destruct l as [|? l]; [cbn in *; lia|]). reflexivity.
Qed.
Lemma reparse_seq raw q k x r' : p_parsed12 0 raw = Some q -> p_parsed12 k (firstn 11 raw ++ x) = Some r' -> r_seq r' = r_seq q.
Proof.
  intros H K. apply parsed_seq in H, K. destruct H as [-> L], K as [-> _]. do 11 (destruct raw as [|? raw]; [cbn in L; lia|]). reflexivity.
Qed.

(** Once a record was opened, no record with its number is opened again. *)
Lemma opened_once cfg auth h1 s1 raw r e1 h2 s2 raw2 r2 e2 :
  reach12 E cfg auth h1 s1 -> 
  rec_parse E raw (end_eng s1) = (Ok (Some r), e1) -> en_penc (end_eng s1) = true -> r_epoch r <> 0 ->
  history E (set_end_eng e1 s1) h2 s2 -> en_penc (end_eng s2) = true ->
  rec_parse E raw2 (end_eng s2) = (Ok (Some r2), e2) -> r_epoch r2 <> 0 -> r_seq r2 <> r_seq r.
Proof.
  intros (s0 & H0 & H1) P1 Pe1 Ep1 H2 Pe2 P2 Ep2 Eq.
  destruct (lf_history E Rw Rw_frame _ _ _ H1 [] (new_window _ _ _ H0)) as (seen & _ & W).
  assert (Shape : forall raw e r e', rec_parse E raw e = (Ok (Some r), e') -> en_penc e = true -> r_epoch r <> 0 ->
    window_check (en_replay e) (r_seq r) = true /\ en_replay e' = window_update (en_replay e) (r_seq r)).
  { clear. intros raw e r e' P Pe Ep.
    assert (Q : wp (rec_parse E raw) (fun o e' => match o with Ok (Some r) => r_epoch r <> 0 ->
      window_check (en_replay e) (r_seq r) = true /\ en_replay e' = window_update (en_replay e) (r_seq r) | _ => True end) e).
    { unfold rec_parse. destruct (p_parsed12 0 raw) as [q|] eqn:Hp; [|apply wp_ret; exact I]. apply wp_bind, wp_get. rewrite Pe. cbn [negb]. rewrite orb_false_r.
      destruct (N.eqb_spec (r_epoch q) 0); [apply wp_ret; intro; contradiction|].
      destruct (window_check (en_replay e) (r_seq q)) eqn:Hc; cbn [negb]; [|apply wp_ret; exact I].
      destruct (_ <? _); [apply wp_ret; exact I|]. unfold decryption_aad_and_nonce. apply wp_bind, wp_bind, wp_get.
      destruct (peer_iv e); [|apply wp_panic; exact I]. destruct (record_nonce _ _ _ _ _); [|apply wp_panic; exact I]. apply wp_ret.
      destruct (cipher_open _ _ _ _ _) as [pt|]; [|destruct (en_release e); [apply wp_ret|apply wp_fail]; exact I].
      apply wp_bind, wp_modify, wp_bind. unfold when.
      assert (Sq : forall r', p_parsed12 (en_enl e) (firstn 11 raw ++ be 2 (len pt) ++ firstn (en_enl e) (skipn 13 raw) ++ pt) = Some r' -> r_seq r' = r_seq q).
      { intros r' Hr'. eapply reparse_seq; eauto. }
      destruct (_ =? _); [apply wp_modify|apply wp_ret];
        (destruct (p_parsed12 (en_enl e) _) as [r'|] eqn:Hr'; [|apply wp_fail; exact I]; apply wp_ret; intros _; rewrite (Sq _ eq_refl); split; [exact Hc|reflexivity]). }
    unfold wp in Q. rewrite P in Q. apply Q, Ep. }
  destruct (Shape _ _ _ _ P1 Pe1 Ep1) as [C1 U1]. destruct (Shape _ _ _ _ P2 Pe2 Ep2) as [C2 _].
  pose proof (window_update_inv _ _ _ W C1) as W1. rewrite <- U1 in W1.
  assert (Es : end_eng (set_end_eng e1 s1) = e1) by (destruct s1; reflexivity). rewrite <- Es in W1.
  destruct (lf_history E Rw Rw_frame _ _ _ H2 _ W1) as (seen2 & I2 & W2).
  apply (window_check_spec _ _ _ W2) in C2. destruct C2 as [New _]. apply New, I2. rewrite Eq. left. reflexivity.
Qed.
End Replay.
