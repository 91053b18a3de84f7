(** C16, C49: what one DTLS 1.3 endpoint protects the other one opens, and both derive
    the same keys. *)
From Coq Require Import String.
From Verif Require Import Prelude PreludeFacts Types Codec Codec12 Codec13 CodecProofs Codec12Proofs Record12Proofs Record12 Record13 Spec13 Record13Proofs Monad MonadFacts Timer
  Env Config Aead Prf Window AuxProofs SeqRecon Engine12 Client12 Engine13 Client13 Server13 Toy History12 Conn12 History13 Conn13
  Frame13 Lift13 Send13Proofs Open13.
Close Scope string_scope.

(** ** C16 *)

(** The receiver [e] takes a record whose header carries the two low bits of [ep] for
    one of epoch [ep]: [ep] is the handshake epoch and the handshake is not over, or
    the newest application epoch with these two bits, other than the bits of the
    handshake epoch while that is in use. *)
Definition current13 (e : Eng13) (ep : N) : Prop :=
  (ep = 2 /\ g_release e = false) \/
  (ep <> 2 /\ (ep mod 4 = 2 -> g_release e = true \/ g_hs_recv e = None) /\
   exists older x newer, g_recv e = older ++ x :: newer /\ re_epoch x = ep /\ Forall (fun y => re_epoch y mod 4 <> ep mod 4) newer).
(** The next record number [e] expects in epoch [ep]. *)
Definition expected13 (e : Eng13) (ep : N) : N :=
  if ep =? 2 then g_hs_exp e else match find (fun x => re_epoch x =? ep) (g_recv e) with Some x => re_exp x | None => 0 end.

Lemma land3 n : N.land n 3 = n mod 4.
Proof. change 3 with (N.ones 2). rewrite N.land_ones. reflexivity. Qed.
Lemma newest_last bits l : forall best, Forall (fun y => re_epoch y mod 4 <> bits) l -> newest_match bits l best = best.
Proof.
  induction l as [|x l IH]; intros best H; [reflexivity|]. inversion H; subst. cbn [newest_match]. rewrite land3.
  destruct (re_epoch x mod 4 =? bits) eqn:K; [apply N.eqb_eq in K; contradiction|]. apply IH; assumption.
Qed.
Lemma newest_app bits a b : forall best, newest_match bits (a ++ b) best = newest_match bits b (newest_match bits a best).
Proof. induction a as [|x a IH]; intros best; [reflexivity|]. cbn [app newest_match]. apply IH. Qed.
Lemma current_resolve e ep k : recv_keys13 e ep = Some k -> current13 e ep -> resolve_epoch e (N.land ep 3) = ep.
Proof.
  intros Hk [[-> Hr]|(Hn & Hb & older & x & newer & Hl & Hx & Hf)]; unfold resolve_epoch.
  - unfold recv_keys13 in Hk. cbn [N.eqb Pos.eqb] in Hk. rewrite Hk, Hr. reflexivity.
  - rewrite land3. assert (is_some (g_hs_recv e) && (ep mod 4 =? 2) && negb (g_release e) = false) as ->.
    { destruct (ep mod 4 =? 2) eqn:K; [|rewrite andb_false_r; reflexivity]. apply N.eqb_eq in K.
      destruct (Hb K) as [H|H]; rewrite H; [rewrite andb_false_r; reflexivity|reflexivity]. }
    rewrite Hl, newest_app. cbn [newest_match]. rewrite land3, Hx, N.eqb_refl, newest_last by exact Hf. reflexivity.
Qed.

Lemma lxor_twice x m : N.lxor (N.lxor x m) m = x.
Proof. rewrite N.lxor_assoc, N.lxor_nilpotent, N.lxor_0_r. reflexivity. Qed.
Lemma cipher_bytes ep sq body : s_cipher13 ep sq body = N.lor 44 (N.land ep 3) :: ((sq / 256) mod 256) :: (sq mod 256) :: be 2 (len body) ++ body.
Proof. unfold s_cipher13, s_uhdr13. rewrite (be2 sq). reflexivity. Qed.
Lemma mask_cipher mask b q1 q0 r : xor_seq 2 mask (b :: q1 :: q0 :: r) = b :: N.lxor q1 (nth 0 mask 0) :: N.lxor q0 (nth 1 mask 0) :: r.
Proof. reflexivity. Qed.
Lemma skip_be2 n (l : bytes) : skipn 2 (be 2 n ++ l) = l.
Proof. rewrite (be2 n). reflexivity. Qed.
Lemma head_byte ep : let b := N.lor 44 (N.land ep 3) in
  is_ct_header b = true /\ flag_c b = false /\ flag_s b = true /\ flag_l b = true /\ uhdr_len b = 5%nat /\ seq_len b = 2%nat /\ N.land b 3 = N.land ep 3.
Proof.
  cbv zeta. assert (N.land ep 3 < 4) by (rewrite land3; apply N.mod_lt; discriminate). set (x := N.land ep 3) in *.
  assert (x = 0 \/ x = 1 \/ x = 2 \/ x = 3) as [-> |[-> |[-> | ->]]] by lia; repeat split; reflexivity.
Qed.
Lemma parse_sealed ep sq body : bytes_ok body -> len body < 65536 ->
  p_parsed13 (s_cipher13 ep sq body) = Some (rec13_of CT_APP (ep mod 4) (sq mod 2^16) (len body) body (s_cipher13 ep sq body), 5%nat).
Proof.
  intros Hb Hl. unfold p_parsed13. pose proof (s_cipher13_layout ep sq body Hl) as L.
  pose proof (p_rec13_unified _ true true _ _ _ [] (s_cipher13_ok ep sq body Hb) L ltac:(discriminate)) as P.
  rewrite app_nil_r in P. rewrite P. reflexivity.
Qed.

(** Under a correct AEAD, a record protected by one endpoint's send path, of the
    content type [ct] and with the content [f], is exactly one record of the
    datagram it is in, and an endpoint that has the same key for the epoch, has not
    yet accepted this number and expects one at most 32767 away takes it for a record
    of type [ct] with content [f]. *)
Theorem C16_roundtrip13 : forall E a ct ep save f a' e k,
  seal_open_ok E -> seal13_len_ok E -> seal_bytes_ok E ->
  create_cipher13 E ct ep save f a = (Ok tt, a') -> 
  ep <> 0 -> 0 < ct -> ct < 256 -> bytes_ok f ->
  let sq := ctx_seq a (ctx13 a ep) in
  ctx_keys a (ctx13 a ep) = Some k -> recv_keys13 e ep = Some k ->
  g_suite a = Some (ek_suite k) -> g_suite e = Some (ek_suite k) ->
  g_penc e = true -> current13 e ep ->
  (Z.abs (Z.of_N sq - Z.of_N (expected13 e ep)) < 2 ^ 15)%Z -> replay_check13 e ep sq = true ->
  exists raw, (g_tx a' = g_tx a ++ [raw] \/ g_tx a' = append_last raw (g_tx a)) /\
    (len raw < 65536 ->
     (forall rest, rec_bound13 (raw ++ rest) = BRec (length raw)) /\
     exists r, rec_parse13 E raw e = (Ok (Some r), replay_update13 ep sq e) /\
       r_ctype r = ct /\ r_epoch r = ep /\ r_seq r = sq /\ r_frag r = f).
Proof.
  intros E a ct ep save f a' e k SO SL SB H Hep Hct Hct2 Hf sq Hk Hr Ha He Hp Hcur Hwin Hrep.
  pose proof (create_cipher_spec E ct ep save f a) as W. unfold wp in W. rewrite H in W. cbn [fst snd] in W.
  destruct W as (cs & i & k' & body & rec & W1 & W2 & W3 & (W4 & W5) & W6 & _ & _ & W7).
  rewrite Ha in W1. injection W1 as <-. rewrite Hk in W3. injection W3 as <-. fold sq in W4, W5, W6.
  assert (Hlen : length body = (length (f ++ [ct]) + s13_tag i)%nat) by (exact (SL _ _ _ _ _ _ _ W2 W4)).
  assert (Hhdr : len (f ++ [ct]) + N.of_nat (s13_tag i) = len body) by (unfold len; lia).
  rewrite Hhdr in W4.
  assert (Hbody : bytes_ok body).
  { apply (SB _ _ _ _ _ _ ) in W4; [exact W4|]. apply bytes_ok_app. split; [exact Hf|]. apply bytes_ok_cons. split; [exact Hct2|constructor]. }
  unfold s_rec13 in W5. destruct (ep =? 0) eqn:K; [apply N.eqb_eq in K; contradiction|]. clear K.
  set (mask := if Nat.leb 16 (length body) then _ else _) in W5.
  destruct (head_byte ep) as (B1 & B2 & B3 & B4 & B5 & B6 & B7).
  exists rec. split.
  { rewrite W7. unfold emit13. destruct (can_append13 a (5 + len body)).
    - right. cbn [g_tx set_g_tx]. f_equal. unfold bump_seq, keep13. destruct (ctx13 a ep), save; try reflexivity; cbn; destruct (3 <=? ep); try reflexivity; destruct (_ <=? _); reflexivity.
    - left. cbn [g_tx set_g_tx set_g_sealed]. f_equal. unfold bump_seq, keep13. destruct (ctx13 a ep), save; try reflexivity; cbn; destruct (3 <=? ep); try reflexivity; destruct (_ <=? _); reflexivity. }
  intros Hlr.
  rewrite cipher_bytes, mask_cipher in W5.
  assert (Lrec : length rec = (5 + length body)%nat).
  { rewrite W5. cbn [length]. rewrite app_length, be_length. reflexivity. }
  assert (Hl16 : len body < 65536) by (unfold len in *; lia).
  split.
  { intros rest. unfold rec_bound13. assert (hd 0 (rec ++ rest) = N.lor 44 (N.land ep 3)) as -> by (rewrite W5; reflexivity).
    rewrite B1, B2, B4, B5, B6. rewrite app_length, Lrec.
    destruct (Nat.ltb_spec (5 + length body + length rest) 2); [lia|].
    destruct (Nat.ltb_spec (5 + length body + length rest) 5); [lia|].
    assert (unbe (firstn 2 (skipn (1 + 2) (rec ++ rest))) = len body) as ->.
    { rewrite W5. cbn [skipn app Nat.add]. rewrite <- app_assoc. rewrite firstn_app, be_length. cbn [Nat.sub]. rewrite firstn_O, app_nil_r.
      rewrite firstn_all2 by (rewrite be_length; lia). apply unbe_be_small. exact Hl16. }
    unfold len at 1 2. rewrite Nat2N.id. destruct (Nat.ltb_spec (5 + length body + length rest) (5 + length body)); [lia|reflexivity]. }
  assert (Hun : (if is_ct_header (hd 0 rec) && g_penc e then unmask13 E rec else ret rec) e = (Ok (s_cipher13 ep sq body), e)).
  { assert (hd 0 rec = N.lor 44 (N.land ep 3)) as Hh by (rewrite W5; reflexivity). rewrite Hh, B1, Hp. cbn [andb].
    unfold unmask13. rewrite Hh, B5, B6, B7. unfold bind at 1, get at 1. rewrite Lrec.
    destruct (Nat.leb_spec (5 + 16) (5 + length body)) as [L|L].
    - rewrite (current_resolve e ep k Hr Hcur), Hr. unfold bind, suite_provider13, get. unfold bind, get. rewrite He, W2. cbn [of_opt].
      assert (Hs : firstn 16 (skipn 5 rec) = firstn 16 body).
      { rewrite W5. reflexivity. }
      unfold ret. rewrite Hs.
      assert (Hm : mask = e_mask E (s13_id i) (ek_sn k) (firstn 16 body)) by (unfold mask; destruct (Nat.leb_spec 16 (length body)); [reflexivity|lia]).
      rewrite <- Hm. rewrite W5, cipher_bytes, mask_cipher, !lxor_twice. reflexivity.
    - assert (Hm : mask = []) by (unfold mask; destruct (Nat.leb_spec 16 (length body)); [lia|reflexivity]).
      unfold ret. rewrite W5, Hm, cipher_bytes. cbn [nth]. rewrite !N.lxor_0_r. reflexivity. }
  eexists. split.
  { unfold rec_parse13. unfold bind at 1, get at 1. unfold bind at 1. rewrite Hun.
    rewrite (parse_sealed ep sq body Hbody Hl16).
    assert (hd 0 rec = N.lor 44 (N.land ep 3)) as -> by (rewrite W5; reflexivity). rewrite B1, B3, Hp. cbn [negb orb].
    match goal with |- context [rec13_of CT_APP ?x ?y ?n ?fr ?bu] => set (r0 := rec13_of CT_APP x y n fr bu) end.
    assert (R1 : r_epoch r0 = N.land ep 3) by (rewrite land3; reflexivity). assert (R2 : r_seq r0 = sq mod 2^16) by reflexivity.
    rewrite R1, R2. clearbody r0. rewrite (current_resolve e ep k Hr Hcur).
    assert (resolve_sequence e ep (sq mod 2^16) true = sq) as ->.
    { unfold resolve_sequence. apply recon_exact; [right; reflexivity|]. exact Hwin. }
    rewrite Hrep. cbn [negb]. unfold bind at 1, suite_provider13. unfold bind at 1, get at 1. rewrite He, W2. cbn [of_opt].
    unfold ret at 1. rewrite Hr.
    assert (length (s_cipher13 ep sq body) = (5 + length body)%nat) as -> by (rewrite cipher_bytes; cbn [length]; rewrite app_length, be_length; reflexivity).
    destruct (Nat.ltb_spec (5 + length body - 5) (s13_tag i)); [lia|].
    assert (firstn 5 (s_cipher13 ep sq body) = s_uhdr13 ep sq (len body)) as ->
      by (unfold s_cipher13, s_uhdr13; rewrite (be2 sq), (be2 (len body)); reflexivity).
    assert (skipn 5 (s_cipher13 ep sq body) = body) as -> by (rewrite cipher_bytes; exact (skip_be2 (len body) body)).
    rewrite (SO _ _ _ _ _ _ W4). unfold bind, modify.
    pose proof (inner_type_s f ct 0 ltac:(lia)) as HI. cbn [repeat] in HI. rewrite HI. reflexivity. }
  cbn [rec13_of r_ctype r_epoch r_seq r_frag]. auto.
Qed.
Print Assumptions C16_roundtrip13.

(** The client and the server of the example runs: the client protects a record in the
    first application epoch, the server accepts it. *)
Definition ex_cl : Eng13 := end13_eng (snd xc_run).
Definition ex_sv : Eng13 := end13_eng (snd xs_run).
Example C16_case13 :
  fst (create_cipher13 toy CT_APP 3 false [1; 2; 3] ex_cl) = Ok tt /\
  ctx_seq ex_cl (ctx13 ex_cl 3) = 0 /\ ctx_keys ex_cl (ctx13 ex_cl 3) = recv_keys13 ex_sv 3 /\
  g_suite ex_cl = option_map ek_suite (recv_keys13 ex_sv 3) /\ g_suite ex_sv = g_suite ex_cl /\
  recv_keys13 ex_sv 3 <> None /\ g_penc ex_sv = true /\ current13 ex_sv 3 /\ expected13 ex_sv 3 = 0 /\ replay_check13 ex_sv 3 0 = true.
Proof.
  do 5 (split; [vm_compute; reflexivity|]). split; [vm_compute; discriminate|]. split; [vm_compute; reflexivity|].
  split; [|split; vm_compute; reflexivity]. right. split; [discriminate|]. split; [discriminate|].
  exists [], (hd (mkRecv13 0 (mkKeys13 0 [] [] [] []) 0 window_new) (g_recv ex_sv)), []. split; [vm_compute; reflexivity|].
  split; [vm_compute; reflexivity|constructor].
Qed.

(** ** C49 *)

(** The traffic keys of a secret (RFC 8446, 7.3; RFC 9147, 4.2.3): three expansions with
    the labels "key", "iv" and "sn". *)
Definition keys_of (E : Env) (h : N) (i : Suite13Info) (secret : bytes) (k : Keys13) : Prop :=
  ek_suite k = s13_id i /\ ek_secret k = secret /\
  hkdf_expand_label13 E h secret (str "key") [] (s13_key i) = Some (ek_key k) /\
  hkdf_expand_label13 E h secret (str "iv") [] (s13_iv i) = Some (ek_iv k) /\
  hkdf_expand_label13 E h secret (str "sn") [] (s13_key i) = Some (ek_sn k).

Lemma derive_keys E e secret :
  wp (derive_epoch_keys E secret) (fun r e' => e' = e /\ match r with Ok k =>
    exists cs i, g_suite e = Some cs /\ find13 E cs = Some i /\ keys_of E (suite13_hash cs) i secret k | _ => True end) e.
Proof.
  unfold derive_epoch_keys, hash_alg13, label13. apply wp_bind, wp_bind, wp_get. destruct (g_suite e) as [cs|] eqn:Hs; [|split; [reflexivity|exact I]].
  apply wp_ret, wp_bind, wp_suite_provider. rewrite Hs. destruct (find13 E cs) as [i|] eqn:Hi; [|split; [reflexivity|exact I]].
  apply wp_bind. destruct (hkdf_expand_label13 E (suite13_hash cs) secret (str "key") [] (s13_key i)) as [ky|] eqn:H1; [|split; [reflexivity|exact I]].
  apply wp_ret, wp_bind. destruct (hkdf_expand_label13 E (suite13_hash cs) secret (str "iv") [] (s13_iv i)) as [iv|] eqn:H2; [|split; [reflexivity|exact I]].
  apply wp_ret, wp_bind. destruct (hkdf_expand_label13 E (suite13_hash cs) secret (str "sn") [] (s13_key i)) as [sn|] eqn:H3; [|split; [reflexivity|exact I]].
  apply wp_ret. destruct (negb _); [split; [reflexivity|exact I]|]. destruct (negb _); [split; [reflexivity|exact I]|]. apply wp_ret. split; [reflexivity|].
  exists cs, i. repeat split; assumption.
Qed.
Lemma keys_of_one E h i s k k' : keys_of E h i s k -> keys_of E h i s k' -> k' = k.
Proof.
  intros (A1 & A2 & A3 & A4 & A5) (B1 & B2 & B3 & B4 & B5). destruct k, k'. cbn in *. congruence.
Qed.

(** What the key installations leave behind: the sending keys are those of the own
    secret, the receiving keys those of the peer's. *)
Lemma install_hs E c sv e e' : install_handshake_keys E c sv e = (Ok tt, e') ->
  exists cs i ks kr, g_suite e = Some cs /\ find13 E cs = Some i /\ g_hs_send e' = Some ks /\ g_hs_recv e' = Some kr /\
    keys_of E (suite13_hash cs) i (if g_client e then c else sv) ks /\ keys_of E (suite13_hash cs) i (if g_client e then sv else c) kr.
Proof.
  intros H.
  assert (W : wp (install_handshake_keys E c sv) (fun r e' => match r with Ok _ =>
    exists cs i ks kr, g_suite e = Some cs /\ find13 E cs = Some i /\ g_hs_send e' = Some ks /\ g_hs_recv e' = Some kr /\
    keys_of E (suite13_hash cs) i (if g_client e then c else sv) ks /\ keys_of E (suite13_hash cs) i (if g_client e then sv else c) kr | _ => True end) e).
  { unfold install_handshake_keys. apply wp_bind, wp_get.
    destruct (if g_client e then (c, sv) else (sv, c)) as [s1 s2] eqn:Hq.
    assert (Q1 : s1 = if g_client e then c else sv) by (destruct (g_client e); congruence).
    assert (Q2 : s2 = if g_client e then sv else c) by (destruct (g_client e); congruence). rewrite <- Q1, <- Q2. clear Hq Q1 Q2.
    apply wp_bind. eapply wp_mono; [apply derive_keys|]. intros [ks|x|n] e1 [-> K]; [|exact I..]. destruct K as (cs & i & K1 & K2 & K3).
    apply wp_bind, wp_modify, wp_bind. eapply wp_mono; [apply derive_keys|]. intros [kr|x|n] e1 [-> J]; [|exact I..].
    destruct J as (cs' & i' & J1 & J2 & J3). cbn [g_suite set_g_hs_send] in J1. rewrite K1 in J1. injection J1 as <-. rewrite K2 in J2. injection J2 as <-.
    apply wp_bind, wp_modify, wp_modify. exists cs, i, ks, kr. cbn [g_hs_send g_hs_recv set_g_hs_seq set_g_hs_recv set_g_hs_send]. auto 10. }
  unfold wp in W. rewrite H in W. exact W.
Qed.
Lemma install_app E c sv e e' : install_application_keys E c sv e = (Ok tt, e') ->
  exists cs i ks kr, g_suite e = Some cs /\ find13 E cs = Some i /\ g_app_send e' = Some ks /\ g_epoch e' = 3 /\
    g_recv e' = g_recv e ++ [mkRecv13 3 kr 0 window_new] /\
    keys_of E (suite13_hash cs) i (if g_client e then c else sv) ks /\ keys_of E (suite13_hash cs) i (if g_client e then sv else c) kr.
Proof.
  intros H.
  assert (W : wp (install_application_keys E c sv) (fun r e' => match r with Ok _ =>
    exists cs i ks kr, g_suite e = Some cs /\ find13 E cs = Some i /\ g_app_send e' = Some ks /\ g_epoch e' = 3 /\
    g_recv e' = g_recv e ++ [mkRecv13 3 kr 0 window_new] /\
    keys_of E (suite13_hash cs) i (if g_client e then c else sv) ks /\ keys_of E (suite13_hash cs) i (if g_client e then sv else c) kr | _ => True end) e).
  { unfold install_application_keys. apply wp_bind, wp_get.
    destruct (if g_client e then (c, sv) else (sv, c)) as [s1 s2] eqn:Hq.
    assert (Q1 : s1 = if g_client e then c else sv) by (destruct (g_client e); congruence).
    assert (Q2 : s2 = if g_client e then sv else c) by (destruct (g_client e); congruence). rewrite <- Q1, <- Q2. clear Hq Q1 Q2.
    apply wp_bind. eapply wp_mono; [apply derive_keys|]. intros [ks|x|n] e1 [-> K]; [|exact I..]. destruct K as (cs & i & K1 & K2 & K3).
    apply wp_bind, wp_modify, wp_bind. eapply wp_mono; [apply derive_keys|]. intros [kr|x|n] e1 [-> J]; [|exact I..].
    destruct J as (cs' & i' & J1 & J2 & J3). cbn [g_suite set_g_app_send] in J1. rewrite K1 in J1. injection J1 as <-. rewrite K2 in J2. injection J2 as <-.
    apply wp_bind. unfold push_recv. apply wp_bind, wp_get. destruct (Nat.leb 4 _); [exact I|]. apply wp_modify, wp_modify.
    exists cs, i, ks, kr. cbn [g_app_send g_epoch g_recv set_g_app_seq set_g_epoch set_g_recv set_g_app_send]. auto 10. }
  unfold wp in W. rewrite H in W. exact W.
Qed.

(** The secrets depend on the suite, the shared secret and the messages so far only:
    both sides get the same, and the client's is derived with the label
    "c hs traffic", the server's with "s hs traffic". *)
Definition handshake_secrets (E : Env) (h : N) (shared transcript c sv hs : bytes) : Prop :=
  exists early derived,
    hkdf_extract E h (repeat 0 (hash_len h)) (repeat 0 (hash_len h)) = Some early /\
    hkdf_expand_label13 E h early (str "derived") (e_hash E h []) (hash_len h) = Some derived /\
    hkdf_extract E h derived shared = Some hs /\
    hkdf_expand_label13 E h hs (str "c hs traffic") (e_hash E h transcript) (hash_len h) = Some c /\
    hkdf_expand_label13 E h hs (str "s hs traffic") (e_hash E h transcript) (hash_len h) = Some sv.
Definition application_secrets (E : Env) (h : N) (hs transcript c sv : bytes) : Prop :=
  exists derived master,
    hkdf_expand_label13 E h hs (str "derived") (e_hash E h []) (hash_len h) = Some derived /\
    hkdf_extract E h derived (repeat 0 (hash_len h)) = Some master /\
    hkdf_expand_label13 E h master (str "c ap traffic") (e_hash E h transcript) (hash_len h) = Some c /\
    hkdf_expand_label13 E h master (str "s ap traffic") (e_hash E h transcript) (hash_len h) = Some sv.

Lemma derive_hs E shared e : wp (derive_handshake_secrets E shared) (fun r e' => e' = e /\ match r with Ok (c, sv, hs) =>
    exists cs, g_suite e = Some cs /\ handshake_secrets E (suite13_hash cs) shared (g_transcript e) c sv hs | _ => True end) e.
Proof.
  unfold derive_handshake_secrets, transcript_hash13, hash_alg13, label13, extract13.
  apply wp_bind, wp_bind, wp_get. destruct (g_suite e) as [cs|] eqn:Hs; [|split; [reflexivity|exact I]]. apply wp_ret.
  set (h := suite13_hash cs).
  apply wp_bind. destruct (hkdf_extract E h (repeat 0 (hash_len h)) (repeat 0 (hash_len h))) as [early|] eqn:H1; [|split; [reflexivity|exact I]]. apply wp_ret.
  apply wp_bind. destruct (hkdf_expand_label13 E h early _ _ _) as [derived|] eqn:H2; [|split; [reflexivity|exact I]]. apply wp_ret.
  apply wp_bind. destruct (hkdf_extract E h derived shared) as [hs|] eqn:H3; [|split; [reflexivity|exact I]]. apply wp_ret.
  apply wp_bind, wp_bind, wp_bind, wp_get. rewrite Hs. apply wp_ret, wp_bind, wp_get, wp_ret. fold h.
  apply wp_bind. destruct (hkdf_expand_label13 E h hs (str "c hs traffic") _ _) as [c|] eqn:H4; [|split; [reflexivity|exact I]]. apply wp_ret.
  apply wp_bind. destruct (hkdf_expand_label13 E h hs (str "s hs traffic") _ _) as [sv|] eqn:H5; [|split; [reflexivity|exact I]]. apply wp_ret, wp_ret.
  split; [reflexivity|]. exists cs. split; [reflexivity|]. exists early, derived. auto.
Qed.
Lemma derive_app E hs e : wp (derive_application_secrets E hs) (fun r e' => match r with Ok (c, sv) =>
    g_suite e' = g_suite e /\ g_client e' = g_client e /\ g_recv e' = g_recv e /\
    exists cs, g_suite e = Some cs /\ application_secrets E (suite13_hash cs) hs (g_transcript e) c sv | _ => True end) e.
Proof.
  unfold derive_application_secrets, transcript_hash13, hash_alg13, label13, extract13.
  apply wp_bind, wp_bind, wp_get. destruct (g_suite e) as [cs|] eqn:Hs; [|exact I]. apply wp_ret.
  set (h := suite13_hash cs).
  apply wp_bind. destruct (hkdf_expand_label13 E h hs (str "derived") _ _) as [derived|] eqn:H2; [|exact I]. apply wp_ret.
  apply wp_bind. destruct (hkdf_extract E h derived _) as [master|] eqn:H3; [|exact I]. apply wp_ret.
  apply wp_bind, wp_bind, wp_bind, wp_get. rewrite Hs. apply wp_ret, wp_bind, wp_get, wp_ret. fold h.
  apply wp_bind. destruct (hkdf_expand_label13 E h master (str "exp master") _ _) as [ex|] eqn:H6; [|exact I]. apply wp_ret.
  apply wp_bind. destruct (hkdf_expand_label13 E h master (str "c ap traffic") _ _) as [c|] eqn:H4; [|exact I]. apply wp_ret.
  apply wp_bind. destruct (hkdf_expand_label13 E h master (str "s ap traffic") _ _) as [sv|] eqn:H5; [|exact I]. apply wp_ret.
  apply wp_bind, wp_modify, wp_ret. split; [exact Hs|]. split; [reflexivity|]. split; [reflexivity|].
  exists cs. split; [reflexivity|]. exists derived, master. auto.
Qed.

(** A client and a server with the same suite, shared secret and transcript that derive
    and install handshake keys: the secrets are the same on both sides, what one sends
    with is what the other receives with, and each key is that of the secret with the
    sender's label. *)
Theorem C49_handshake_keys13 : forall E shared a b c sv hs a1 a2 c' sv' hs' b1 b2,
  g_suite b = g_suite a -> g_transcript b = g_transcript a -> g_client a = true -> g_client b = false ->
  derive_handshake_secrets E shared a = (Ok (c, sv, hs), a1) -> install_handshake_keys E c sv a1 = (Ok tt, a2) ->
  derive_handshake_secrets E shared b = (Ok (c', sv', hs'), b1) -> install_handshake_keys E c' sv' b1 = (Ok tt, b2) ->
  (c', sv', hs') = (c, sv, hs) /\
  exists cs i kc ks, g_suite a = Some cs /\ find13 E cs = Some i /\
    handshake_secrets E (suite13_hash cs) shared (g_transcript a) c sv hs /\
    keys_of E (suite13_hash cs) i c kc /\ keys_of E (suite13_hash cs) i sv ks /\
    g_hs_send a2 = Some kc /\ recv_keys13 b2 2 = Some kc /\ g_hs_send b2 = Some ks /\ recv_keys13 a2 2 = Some ks.
Proof.
  intros E shared a b c sv hs a1 a2 c' sv' hs' b1 b2 Es Et Ca Cb Da Ia Db Ib.
  pose proof (derive_hs E shared a) as Wa. unfold wp in Wa. rewrite Da in Wa. destruct Wa as [Qa (cs & Wa1 & Wa2)]. cbn [snd] in Qa. subst a1.
  pose proof (derive_hs E shared b) as Wb. unfold wp in Wb. rewrite Db in Wb. destruct Wb as [Qb (cs' & Wb1 & Wb2)]. cbn [snd] in Qb. subst b1.
  rewrite Es, Wa1 in Wb1. injection Wb1 as <-. rewrite Et in Wb2. pose proof Wa2 as Wa3.
  destruct Wa3 as (ea & da & P1 & P2 & P3 & P4 & P5), Wb2 as (eb & db & R1 & R2 & R3 & R4 & R5).
  assert (eb = ea) by congruence. subst eb. assert (db = da) by congruence. subst db. assert (hs' = hs) by congruence. subst hs'.
  assert (c' = c) by congruence. subst c'. assert (sv' = sv) by congruence. subst sv'. split; [reflexivity|].
  destruct (install_hs _ _ _ _ _ Ia) as (cs1 & i & ks & kr & A1 & A2 & A3 & A4 & A5 & A6).
  destruct (install_hs _ _ _ _ _ Ib) as (cs2 & i2 & ks2 & kr2 & B1 & B2 & B3 & B4 & B5 & B6).
  rewrite Ca in A5, A6. rewrite Cb in B5, B6. rewrite Wa1 in A1. injection A1 as <-. rewrite Es, Wa1 in B1. injection B1 as <-.
  rewrite A2 in B2. injection B2 as <-. rewrite (keys_of_one _ _ _ _ _ _ A5 B6) in B4. rewrite (keys_of_one _ _ _ _ _ _ A6 B5) in B3.
  exists cs, i, ks, kr. unfold recv_keys13. cbn [N.eqb Pos.eqb]. auto 12.
Qed.
Print Assumptions C49_handshake_keys13.

(** The same for the first application keys. *)
Theorem C49_application_keys13 : forall E hs a b c sv a1 a2 c' sv' b1 b2,
  g_suite b = g_suite a -> g_transcript b = g_transcript a -> g_client a = true -> g_client b = false ->
  g_recv a = [] -> g_recv b = [] ->
  derive_application_secrets E hs a = (Ok (c, sv), a1) -> install_application_keys E c sv a1 = (Ok tt, a2) ->
  derive_application_secrets E hs b = (Ok (c', sv'), b1) -> install_application_keys E c' sv' b1 = (Ok tt, b2) ->
  (c', sv') = (c, sv) /\
  exists cs i kc ks, g_suite a = Some cs /\ find13 E cs = Some i /\
    application_secrets E (suite13_hash cs) hs (g_transcript a) c sv /\
    keys_of E (suite13_hash cs) i c kc /\ keys_of E (suite13_hash cs) i sv ks /\
    g_epoch a2 = 3 /\ g_app_send a2 = Some kc /\ recv_keys13 b2 3 = Some kc /\
    g_epoch b2 = 3 /\ g_app_send b2 = Some ks /\ recv_keys13 a2 3 = Some ks.
Proof.
  intros E hs a b c sv a1 a2 c' sv' b1 b2 Es Et Ca Cb Ra Rb Da Ia Db Ib.
  pose proof (derive_app E hs a) as Wa. unfold wp in Wa. rewrite Da in Wa. destruct Wa as (Qa1 & Qa2 & Qa3 & cs & Wa1 & Wa2). cbn [snd] in *.
  pose proof (derive_app E hs b) as Wb. unfold wp in Wb. rewrite Db in Wb. destruct Wb as (Qb1 & Qb2 & Qb3 & cs' & Wb1 & Wb2). cbn [snd] in *.
  rewrite Es, Wa1 in Wb1. injection Wb1 as <-. rewrite Et in Wb2. pose proof Wa2 as Wa3.
  destruct Wa3 as (da & ma & P2 & P3 & P4 & P5), Wb2 as (db & mb & R2 & R3 & R4 & R5).
  assert (db = da) by congruence. subst db. assert (mb = ma) by congruence. subst mb.
  assert (c' = c) by congruence. subst c'. assert (sv' = sv) by congruence. subst sv'. split; [reflexivity|].
  destruct (install_app _ _ _ _ _ Ia) as (cs1 & i & ks & kr & A1 & A2 & A3 & A4 & A5 & A6 & A7).
  destruct (install_app _ _ _ _ _ Ib) as (cs2 & i2 & ks2 & kr2 & B1 & B2 & B3 & B4 & B5 & B6 & B7).
  rewrite Qa2, Ca in A6, A7. rewrite Qb2, Cb in B6, B7. rewrite Qa1, Wa1 in A1. injection A1 as <-. rewrite Qb1, Es, Wa1 in B1. injection B1 as <-.
  rewrite A2 in B2. injection B2 as <-. rewrite (keys_of_one _ _ _ _ _ _ A6 B7) in B5. rewrite (keys_of_one _ _ _ _ _ _ A7 B6) in B3.
  rewrite Qa3, Ra in A5. rewrite Qb3, Rb in B5.
  exists cs, i, ks, kr. unfold recv_keys13. rewrite A5, B5. cbn [app N.eqb Pos.eqb find_recv find re_epoch re_keys]. auto 15.
Qed.
Print Assumptions C49_application_keys13.

(** [in_step a b]: what [a] sends with is the newest key [b] receives with, in the same
    epoch. *)
Definition in_step (a b : Eng13) : Prop :=
  exists k older x, g_app_send a = Some k /\ g_recv b = older ++ [x] /\ re_epoch x = g_epoch a /\ re_keys x = k.
(** A key update of both keeps them in step, and the new key is that of the next
    secret. *)
Theorem C49_updated_keys13 : forall E a b a' b', g_suite b = g_suite a -> in_step a b ->
  update_send_keys E a = (Ok tt, a') -> update_recv_keys E b = (Ok tt, b') ->
  in_step a' b' /\
  exists cs i k next k', g_suite a = Some cs /\ find13 E cs = Some i /\ g_app_send a = Some k /\
    hkdf_expand_label13 E (suite13_hash cs) (ek_secret k) (str "traffic upd") [] (hash_len (suite13_hash cs)) = Some next /\
    g_app_send a' = Some k' /\ keys_of E (suite13_hash cs) i next k' /\ g_epoch a' = (g_epoch a + 1) mod 2 ^ 16.
Proof.
  intros E a b a' b' Es (k & older & x & S1 & S2 & S3 & S4) Ua Ub.
  assert (Wa : wp (update_send_keys E) (fun r a' => match r with Ok _ =>
    exists cs i next k', g_suite a = Some cs /\ find13 E cs = Some i /\
    hkdf_expand_label13 E (suite13_hash cs) (ek_secret k) (str "traffic upd") [] (hash_len (suite13_hash cs)) = Some next /\
    g_app_send a' = Some k' /\ keys_of E (suite13_hash cs) i next k' /\ g_epoch a' = u16 (g_epoch a + 1) | _ => True end) a).
  { unfold update_send_keys, derive_next_secret, hash_alg13, label13. apply wp_bind, wp_get. rewrite S1.
    apply wp_bind, wp_modify, wp_bind, wp_bind, wp_bind, wp_get. cbn [g_suite set_g_app_send]. destruct (g_suite a) as [cs|] eqn:Hs; [|exact I].
    apply wp_ret. destruct (hkdf_expand_label13 _ _ _ _ _ _) as [next|] eqn:Hn; [|exact I]. apply wp_ret.
    apply wp_bind. eapply wp_mono; [apply derive_keys|]. intros [k'|y|n] e1 [-> K]; [|exact I..]. destruct K as (cs' & i & K1 & K2 & K3).
    cbn [g_suite set_g_app_send] in K1. rewrite Hs in K1. injection K1 as <-.
    apply wp_bind, wp_modify, wp_bind, wp_modify, wp_bind, wp_draw13, wp_modify.
    exists cs, i, next, k'. auto 10. }
  unfold wp in Wa. rewrite Ua in Wa. destruct Wa as (cs & i & next & k' & A1 & A2 & A3 & A4 & A5 & A6). cbn [snd] in *.
  assert (Wb : wp (update_recv_keys E) (fun r b' => match r with Ok _ =>
    exists older' ks, g_recv b' = older' ++ [mkRecv13 (u16 (re_epoch x + 1)) ks 0 window_new] /\ keys_of E (suite13_hash cs) i next ks | _ => True end) b).
  { unfold update_recv_keys, derive_next_secret, hash_alg13, label13. apply wp_bind, wp_get. rewrite S2, rev_app_distr. cbn [rev app].
    apply wp_bind, wp_bind, wp_bind, wp_get. rewrite Es, A1. apply wp_ret. rewrite S4, A3. apply wp_ret.
    apply wp_bind. eapply wp_mono; [apply derive_keys|]. intros [ks|y|n] e1 [-> K]; [|exact I..]. destruct K as (cs' & i' & K1 & K2 & K3).
    rewrite Es, A1 in K1. injection K1 as <-. rewrite A2 in K2. injection K2 as <-.
    apply wp_bind, wp_when; intros _; [apply wp_modify|]; unfold push_recv; apply wp_bind, wp_get; destruct (Nat.leb 4 _); try exact I; apply wp_modify;
      eexists _, ks; (split; [reflexivity|exact K3]). }
  unfold wp in Wb. rewrite Ub in Wb. destruct Wb as (older' & ks & B1 & B2). cbn [snd] in *.
  split; [|exists cs, i, k, next, k'; auto 10].
  rewrite (keys_of_one _ _ _ _ _ _ A5 B2) in B1.
  exists k', older', (mkRecv13 (u16 (re_epoch x + 1)) k' 0 window_new). cbn [re_epoch re_keys]. rewrite A6. rewrite S3 in *. auto.
Qed.
Print Assumptions C49_updated_keys13.

(** The two connected endpoints of the example runs are in step both ways. *)
Example C49_case13 : in_step ex_cl ex_sv /\ in_step ex_sv ex_cl /\ g_suite ex_sv = g_suite ex_cl /\ g_suite ex_cl <> None /\
  fst (update_send_keys toy ex_cl) = Ok tt /\ fst (update_recv_keys toy2 ex_sv) = Ok tt.
Proof.
  split; [|split; [|split; [vm_compute; reflexivity|split; [vm_compute; discriminate|split; vm_compute; reflexivity]]]];
    (eexists _, [], _; split; [vm_compute; reflexivity|]; split; [vm_compute; reflexivity|]; split; vm_compute; reflexivity).
Qed.
(** And they meet the hypotheses of the first two theorems. *)
Example C49_case_secrets13 :
  g_suite ex_sv = g_suite ex_cl /\ g_transcript ex_sv = g_transcript ex_cl /\ g_client ex_cl = true /\ g_client ex_sv = false /\
  match derive_handshake_secrets toy [1; 2; 3] ex_cl, derive_handshake_secrets toy [1; 2; 3] ex_sv with
  | (Ok (c, sv, hs), a1), (Ok (c', sv', hs'), b1) =>
      fst (install_handshake_keys toy c sv a1) = Ok tt /\ fst (install_handshake_keys toy c' sv' b1) = Ok tt
  | _, _ => False
  end /\
  match derive_application_secrets toy [1; 2; 3] (set_g_recv [] ex_cl), derive_application_secrets toy [1; 2; 3] (set_g_recv [] ex_sv) with
  | (Ok (c, sv), a1), (Ok (c', sv'), b1) =>
      fst (install_application_keys toy c sv a1) = Ok tt /\ fst (install_application_keys toy c' sv' b1) = Ok tt
  | _, _ => False
  end.
Proof. vm_compute. repeat split; reflexivity. Qed.
