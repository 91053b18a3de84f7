(** Facts about version auto-sensing. *)
From Verif Require Import Prelude PreludeFacts Types Codec CodecProofs Codec12 Codec13 Record12 Record13 Env Config Context12 Monad MonadFacts Timer
  Engine12 Client12 Server12 Engine13 Client13 Server13 History12 History13 Lift13 Auto.

(** ** The endpoints start *)

Lemma rto_pos b : 0 < backoff_rto b.
Proof. unfold backoff_rto. assert (0 < 50 * ms) by reflexivity. lia. Qed.

Lemma leb_later a b : 0 < b -> (a + b <=? a) = false.
Proof. intro H. apply N.leb_gt. lia. Qed.

(** The first [handle_timeout] of an engine. *)
Lemma first_timeout13 E now e (Q : res unit -> Eng13 -> Prop) : g_connect e = Unarmed -> g_flight e = Unarmed -> 0 < c_hs_timeout (g_cfg e) ->
  g_rx e = [] -> g_hs_send e = None ->
  (forall e1, g_rx e1 = [] -> Q (Ok tt) e1) -> wp (eng13_handle_timeout E now) Q e.
Proof.
  intros Hc Hf Ht Hr Ha HQ. unfold eng13_handle_timeout. apply wp_bind, wp_get. rewrite Hc, Hf. cbn [timeout_is_unarmed when].
  apply wp_bind, wp_modify. apply wp_bind, wp_modify. apply wp_bind, wp_get.
  cbn [g_connect g_flight set_g_connect set_g_flight g_bo]. rewrite leb_later by exact Ht. rewrite leb_later by apply rto_pos.
  apply wp_bind, wp_ret. apply wp_bind, wp_modify. unfold maybe_flush_ack. apply wp_bind, wp_get.
  unfold maybe_schedule_ack, handshake_in_progress. cbn [g_hs_send set_g_connect set_g_flight]. rewrite Ha. cbn [is_some andb negb g_ackdl set_g_ackdl].
  apply wp_ret. apply HQ. exact Hr.
Qed.
Lemma first_timeout12 E now e (Q : res unit -> Eng12 -> Prop) : en_connect e = Unarmed -> en_flight e = Unarmed -> 0 < c_hs_timeout (en_cfg e) ->
  en_rx e = [] -> (forall e1, en_rx e1 = [] -> Q (Ok tt) e1) -> wp (eng12_handle_timeout E now) Q e.
Proof.
  intros Hc Hf Ht Hr HQ. unfold eng12_handle_timeout. apply wp_bind, wp_get. rewrite Hc, Hf. cbn [timeout_is_unarmed when].
  apply wp_bind, wp_modify. apply wp_bind, wp_modify. apply wp_bind, wp_get.
  cbn [en_connect en_flight set_en_connect set_en_flight en_bo]. rewrite leb_later by exact Ht. rewrite leb_later by apply rto_pos.
  apply wp_ret. apply HQ. exact Hr.
Qed.

Lemma hybrid13_ok E random fragment kx cfg cert key now : 0 < c_hs_timeout cfg ->
  exists c, client13_from_hybrid E random fragment kx cfg cert key now = (Ok tt, c).
Proof.
  intro H. rewrite from_hybrid.
  assert (W : wp (client13_handle_timeout E now) (fun r _ => r = Ok tt) (hybrid_client E cfg cert key random fragment kx now)).
  { unfold client13_handle_timeout. apply wp_bind, wp_modify. apply wp_bind, wp_get. cbn [xc_random set_xc_now hybrid_client].
    apply wp_bind, wp_ret. apply wp_bind. apply wp_zoom. apply first_timeout13; try reflexivity; [exact H|].
    intros e1 Hr. unfold public, wp, x_make_progress. change 40%nat with (S 39). cbn [x_progress]. unfold bind at 1, get at 1.
    cbn [xc_state set_xc_eng set_xc_now hybrid_client x_step]. unfold x_await_server_hello, next_handshake13, next_handshake13_gen, xeng.
    unfold bind at 1 2 3, get at 1, zoom, bind at 1, get at 1. cbn [xc_eng set_xc_eng set_xc_now hybrid_client].
    assert (K : has_complete13 e1 MT_ServerHello = false).
    { unfold has_complete13, pending_frags, all_frags. rewrite Hr. reflexivity. }
    rewrite K. reflexivity. }
  unfold wp in W. destruct (client13_handle_timeout _ _ _) as [r c]. cbn [fst] in W. subst. eauto.
Qed.
Lemma has_complete_nil e m : en_rx e = [] -> has_complete_handshake e m = false.
Proof. intro H. unfold has_complete_handshake. rewrite H. reflexivity. Qed.
Lemma hybrid12_ok E random fragment cfg auth now : 0 < c_hs_timeout cfg ->
  exists c, client12_from_hybrid E random fragment cfg auth now = (Ok tt, c).
Proof.
  intro H. unfold client12_from_hybrid. set (c0 := mkClient12 _ _ _ _ _ _ _ _ _ _ _ _ _).
  assert (W : wp (client12_handle_timeout E now) (fun r _ => r = Ok tt) c0).
  { unfold client12_handle_timeout. apply wp_bind, wp_modify. apply wp_bind, wp_get. unfold c0 at 1. cbn [cl_random set_cl_now].
    apply wp_bind, wp_ret. apply wp_bind. apply wp_zoom. apply first_timeout12; try reflexivity; [exact H|].
    intros e1 Hr. unfold public, wp, c_make_progress. change 40%nat with (S 39). cbn [c_progress]. unfold bind at 1, get at 1.
    unfold c0. cbn [cl_state set_cl_eng set_cl_now c_step]. unfold c_await_hello_verify_request, next_handshake, ceng.
    unfold bind at 1 2, get at 1. cbn [cl_eng set_cl_eng set_cl_now]. rewrite (has_complete_nil _ _ Hr).
    unfold bind at 1, zoom, bind at 1, get at 1. cbn [cl_eng set_cl_eng set_cl_now]. rewrite (has_complete_nil _ _ Hr). reflexivity. }
  unfold wp in W. destruct (client12_handle_timeout _ _ _) as [r c]. cbn [fst] in W. subst. eauto.
Qed.
Lemma server12_first_ok E cfg auth now : 0 < c_hs_timeout cfg ->
  exists s, server12_handle_timeout E now (server12_new E (eng12_new E cfg auth) now) = (Ok tt, s).
Proof.
  intro H. set (c0 := server12_new _ _ _).
  assert (W : wp (server12_handle_timeout E now) (fun r _ => r = Ok tt) c0).
  { unfold server12_handle_timeout. apply wp_bind, wp_modify. apply wp_bind, wp_get. unfold c0 at 1, server12_new. cbn [sv_random set_sv_now].
    apply wp_bind, wp_bind. unfold random_with_time. apply wp_zoom. apply wp_bind. unfold rand_bytes. apply wp_bind. unfold draw, gets.
    apply wp_bind. unfold wp at 1; cbn [fst snd]. apply wp_bind, wp_modify. apply wp_ret. apply wp_ret. apply wp_ret. apply wp_modify.
    apply wp_bind. apply wp_zoom. apply first_timeout12; try reflexivity; [exact H|].
    intros e1 Hr. unfold public, wp, s_make_progress. change 40%nat with (S 39). cbn [s_progress]. unfold bind at 1, get at 1.
    unfold c0, server12_new. cbn [sv_state set_sv_eng set_sv_now set_sv_random s_step]. unfold s_await_client_hello, next_handshake, seng.
    unfold bind at 1 2, zoom, bind at 1, get at 1. cbn [sv_eng set_sv_eng set_sv_now set_sv_random]. rewrite (has_complete_nil _ _ Hr). reflexivity. }
  unfold wp in W. destruct (server12_handle_timeout _ _ _) as [r c]. cbn [fst] in W. subst. eauto.
Qed.

(** ** Detection *)

Lemma u16_at_app a b c : length a = 2%nat -> u16_at (length b) (b ++ a ++ c) = unbe a.
Proof.
  intro H. unfold u16_at. rewrite skipn_app, skipn_all2, Nat.sub_diag by lia. cbn [skipn app].
  rewrite firstn_app, firstn_all2 by lia. rewrite H, Nat.sub_diag. cbn [firstn]. rewrite app_nil_r. reflexivity.
Qed.
Lemma slice_app a b c : slice (length a) (length b) (a ++ b ++ c) = Some b.
Proof.
  unfold slice. rewrite !app_length. replace (Nat.leb _ _) with true by (symmetry; apply Nat.leb_le; lia).
  rewrite skipn_app, skipn_all2, Nat.sub_diag by lia. cbn [skipn app].
  rewrite firstn_app, firstn_all2 by lia. rewrite Nat.sub_diag. cbn [firstn]. rewrite app_nil_r. reflexivity.
Qed.

(** The version an extension list selects: the first [supported_versions] extension
    decides, and only if it names DTLS 1.3. *)
Definition selected (es : list (N * bytes)) : Detected :=
  match find_ext X_VERSIONS es with
  | Some (a :: b :: _) => if unbe [a; b] =? V_DTLS13 then DV13 else DV12
  | _ => DV12
  end.
Definition ext_ok (e : N * bytes) : Prop := fst e < 65536 /\ len (snd e) < 65536.

Lemma s_ext_len e : length (s_ext e) = (4 + length (snd e))%nat.
Proof. destruct e. unfold s_ext, s_vec. cbn [fst snd]. rewrite !app_length, !be_length. lia. Qed.

Lemma find_version_exts es : forall pre post fuel, Forall ext_ok es -> (length es < fuel)%nat ->
  find_version fuel (pre ++ s_exts es ++ post) (length pre) (length pre + length (s_exts es)) = Ok (selected es).
Proof.
  induction es as [|[t d] es IH]; intros pre post fuel H Hf; (destruct fuel as [|fuel]; [cbn in Hf; lia|]); cbn [find_version].
  { cbn [s_exts flat_map length]. replace (Nat.leb _ _) with false by (symmetry; apply Nat.leb_gt; lia). reflexivity. }
  inversion H as [|x l [Ht Hd] Hes]; subst. cbn [fst snd] in Ht, Hd.
  unfold s_exts. cbn [flat_map]. fold (s_exts es). rewrite app_length, s_ext_len. cbn [snd].
  replace (Nat.leb _ _) with true by (symmetry; apply Nat.leb_le; lia).
  unfold s_ext at 1 2 3 4 5, s_vec. cbn [fst snd].
  set (body := pre ++ _).
  assert (T : u16_at (length pre) body = t).
  { unfold body. rewrite <- !app_assoc. rewrite u16_at_app by apply be_length. apply unbe_be_small. exact Ht. }
  assert (L : u16_at (length pre + 2) body = len d).
  { unfold body. rewrite <- !app_assoc. rewrite (app_assoc pre (be 2 t)).
    replace (length pre + 2)%nat with (length (pre ++ be 2 t)) by (rewrite app_length, be_length; lia).
    rewrite u16_at_app by apply be_length. apply unbe_be_small. exact Hd. }
  rewrite T, L. unfold len at 1 2. rewrite !Nnat.Nat2N.id.
  assert (B : body = (pre ++ be 2 t ++ be 2 (len d)) ++ d ++ s_exts es ++ post) by (unfold body; rewrite <- !app_assoc; reflexivity).
  assert (P : length (pre ++ be 2 t ++ be 2 (len d)) = (length pre + 4)%nat) by (rewrite !app_length, !be_length; lia).
  unfold selected. cbn [find_ext]. rewrite (N.eqb_sym X_VERSIONS t). destruct (t =? X_VERSIONS) eqn:Et.
  - destruct d as [|a [|b d]]; [reflexivity|reflexivity|].
    replace (Nat.leb 2 _) with true by reflexivity.
    replace (Nat.ltb _ _) with false.
    2: { symmetry. apply Nat.ltb_ge. rewrite B, !app_length, !be_length. cbn [length]. lia. }
    rewrite B, <- P. change (a :: b :: d) with ([a; b] ++ d). rewrite <- (app_assoc [a; b]).
    rewrite (u16_at_app [a; b]) by reflexivity. destruct (_ =? V_DTLS13); reflexivity.
  - fold (selected es). rewrite B, app_assoc.
    replace (length pre + 4 + length d)%nat with (length ((pre ++ be 2 t ++ be 2 (len d)) ++ d)) by (rewrite app_length, P; lia).
    replace (length pre + (4 + length d + length (s_exts es)))%nat
      with (length ((pre ++ be 2 t ++ be 2 (len d)) ++ d) + length (s_exts es))%nat by (rewrite app_length, P; lia).
    apply IH; [exact Hes|]. cbn [length] in Hf. lia.
Qed.

(** The walk never runs out of fuel; it panics only when the version extension
    starts less than two bytes before the end of the body. *)
Lemma find_version_fuel : forall fuel body pos ext_end n, (ext_end < pos + S fuel)%nat ->
  find_version (S fuel) body pos ext_end = Panic n -> n = 436.
Proof.
  induction fuel as [|fuel IH]; intros body pos ext_end n H K; cbn [find_version] in K;
    (destruct (Nat.leb (pos + 4) ext_end) eqn:L; [apply Nat.leb_le in L|discriminate]); [lia|].
  destruct (_ =? X_VERSIONS).
  - destruct (Nat.leb 2 _); [|discriminate]. destruct (Nat.ltb _ _); [|destruct (_ =? V_DTLS13); discriminate].
    injection K as <-. reflexivity.
  - apply (IH body (pos + 4 + N.to_nat (u16_at (pos + 2) body))%nat ext_end n); [lia|exact K].
Qed.
Lemma hello_version_panic body n : hello_version body = Panic n -> n = 436.
Proof.
  unfold hello_version. destruct (Nat.ltb _ 35); [discriminate|]. destruct (Nat.ltb _ _); [discriminate|].
  destruct (Nat.ltb _ _) eqn:L; [discriminate|]. apply Nat.ltb_ge in L. apply find_version_fuel. lia.
Qed.
Lemma find_version_ok fuel : forall body pos ee, find_version fuel body pos ee = Ok DV12 \/ find_version fuel body pos ee = Ok DV13 \/
  exists n, find_version fuel body pos ee = Panic n.
Proof.
  induction fuel as [|fuel IH]; intros; cbn [find_version]; [eauto|].
  destruct (Nat.leb _ _); [|auto]. destruct (_ =? X_VERSIONS); [|apply IH].
  destruct (Nat.leb 2 _); [|auto]. destruct (Nat.ltb _ _); [eauto|]. destruct (_ =? V_DTLS13); auto.
Qed.
Lemma hello_version_ok body x : hello_version body = x -> x = Ok DV12 \/ x = Ok DV13 \/ exists n, x = Panic n.
Proof.
  unfold hello_version. intros <-. destruct (Nat.ltb _ 35); [auto|]. destruct (Nat.ltb _ _); [auto|].
  destruct (Nat.ltb _ _); [auto|]. apply find_version_ok.
Qed.
Lemma version_panic p n : server_hello_version p = Panic n -> n = 436.
Proof.
  unfold server_hello_version. destruct (Nat.ltb _ 13); [discriminate|]. destruct (negb _); [discriminate|].
  destruct (slice 13 _ _) as [r|]; [|discriminate]. destruct (Nat.ltb _ 12); [discriminate|].
  destruct (_ =? MT_HelloVerifyRequest); [discriminate|]. destruct (negb _); [discriminate|].
  destruct (slice 12 _ _); [|discriminate]. apply hello_version_panic.
Qed.
Lemma version_no_err p e : server_hello_version p <> Err e.
Proof.
  unfold server_hello_version. destruct (Nat.ltb _ 13); [discriminate|]. destruct (negb _); [discriminate|].
  destruct (slice 13 _ _) as [r|]; [|discriminate]. destruct (Nat.ltb _ 12); [discriminate|].
  destruct (_ =? MT_HelloVerifyRequest); [discriminate|]. destruct (negb _); [discriminate|].
  destruct (slice 12 _ _) as [b|]; [|discriminate]. intro K. destruct (hello_version_ok b _ K) as [H|[H|[n H]]]; discriminate.
Qed.

(** ** Hello datagrams *)

(** The body of a ServerHello: version, random, session id, suite, compression and
    the extension block. *)
Definition server_hello_body (version random sid suite : bytes) (comp : N) (es : list (N * bytes)) : bytes :=
  version ++ random ++ [len sid] ++ sid ++ suite ++ [comp] ++ be 2 (len (s_exts es)) ++ s_exts es.
(** A datagram whose first record holds, after the record header, a handshake
    message (or fragment) of type [t]: [head] are the 8 bytes between the type and the fragment
    length, [more] what follows the message in the record and [rest] what follows the
    record. *)
Definition hs_datagram (t : N) (rechead head body more rest : bytes) : bytes :=
  let r := [t] ++ head ++ be 3 (len body) ++ body ++ more in
  [CT_HS] ++ rechead ++ be 2 (len r) ++ r ++ rest.

Lemma datagram_record a h b r rest : length h = 10%nat -> len r < 65536 -> b = [a] ++ h ++ be 2 (len r) ++ r ++ rest ->
  Nat.ltb (length b) 13 = false /\ hd 0 b = a /\ slice 13 (N.to_nat (u16_at 11 b)) b = Some r.
Proof.
  intros Hh Hr ->. split; [|split; [reflexivity|]].
  - apply Nat.ltb_ge. rewrite !app_length, be_length, Hh. cbn [length]. lia.
  - replace (u16_at 11 _) with (len r).
    2: { replace 11%nat with (length ([a] ++ h)) by (rewrite app_length, Hh; reflexivity).
         rewrite (app_assoc [a] h). rewrite u16_at_app by apply be_length. symmetry. apply unbe_be_small. exact Hr. }
    unfold len at 1. rewrite Nnat.Nat2N.id.
    replace 13%nat with (length ([a] ++ h ++ be 2 (len r))) by (rewrite !app_length, be_length, Hh; reflexivity).
    replace ([a] ++ h ++ be 2 (len r) ++ r ++ rest) with (([a] ++ h ++ be 2 (len r)) ++ r ++ rest) by (rewrite <- !app_assoc; reflexivity).
    apply slice_app.
Qed.
Lemma datagram_message t head body more r : length head = 8%nat -> len body < 2 ^ 24 -> r = [t] ++ head ++ be 3 (len body) ++ body ++ more ->
  Nat.ltb (length r) 12 = false /\ hd 0 r = t /\ slice 12 (N.to_nat (unbe (firstn 3 (skipn 9 r)))) r = Some body.
Proof.
  intros Hh Hb ->. split; [|split; [reflexivity|]].
  - apply Nat.ltb_ge. rewrite !app_length, be_length, Hh. cbn [length]. lia.
  - replace (skipn 9 _) with (be 3 (len body) ++ body ++ more).
    2: { rewrite (app_assoc [t] head). symmetry. rewrite skipn_app. replace (length ([t] ++ head)) with 9%nat by (rewrite app_length, Hh; reflexivity).
         rewrite skipn_all2 by (rewrite app_length, Hh; cbn; lia). reflexivity. }
    replace (firstn 3 _) with (be 3 (len body)).
    2: { rewrite firstn_app, firstn_all2 by (rewrite be_length; lia). rewrite be_length. cbn [Nat.sub firstn]. rewrite app_nil_r. reflexivity. }
    rewrite unbe_be_small by exact Hb. unfold len at 1. rewrite Nnat.Nat2N.id.
    replace 12%nat with (length ([t] ++ head ++ be 3 (len body))) by (rewrite !app_length, be_length, Hh; reflexivity).
    replace ([t] ++ head ++ be 3 (len body) ++ body ++ more) with (([t] ++ head ++ be 3 (len body)) ++ body ++ more) by (rewrite <- !app_assoc; reflexivity).
    apply slice_app.
Qed.

Lemma hello_version_body version random sid suite comp es : length version = 2%nat -> length random = 32%nat -> len sid < 256 -> length suite = 2%nat ->
  Forall ext_ok es -> len (s_exts es) < 65536 -> hello_version (server_hello_body version random sid suite comp es) = Ok (selected es).
Proof.
  intros Hv Hr Hs Hu He Hx. unfold hello_version.
  set (body := server_hello_body _ _ _ _ _ _).
  assert (L : length body = (34 + (1 + length sid) + 2 + 1 + 2 + length (s_exts es))%nat).
  { unfold body, server_hello_body. rewrite !app_length, be_length, Hv, Hr, Hu. cbn [length]. lia. }
  assert (S : nth 34 body 0 = len sid).
  { unfold body, server_hello_body. rewrite app_nth2 by lia. rewrite Hv. rewrite app_nth2 by lia. rewrite Hr. reflexivity. }
  rewrite S. unfold len at 1. rewrite !Nnat.Nat2N.id.
  assert (B : body = (version ++ random ++ [len sid] ++ sid ++ suite ++ [comp]) ++ be 2 (len (s_exts es)) ++ s_exts es).
  { unfold body, server_hello_body. rewrite <- !app_assoc. reflexivity. }
  assert (P : length (version ++ random ++ [len sid] ++ sid ++ suite ++ [comp]) = (34 + (1 + length sid) + 2 + 1)%nat).
  { rewrite !app_length, Hv, Hr, Hu. cbn [length]. lia. }
  assert (X : u16_at (34 + (1 + length sid) + 2 + 1) body = len (s_exts es)).
  { rewrite B, <- P. rewrite u16_at_app by apply be_length. apply unbe_be_small. exact Hx. }
  unfold len. rewrite !Nnat.Nat2N.id. rewrite X. unfold len at 1 2. rewrite Nnat.Nat2N.id.
  replace (Nat.ltb _ 35) with false by (symmetry; apply Nat.ltb_ge; lia).
  replace (Nat.ltb _ _) with false by (symmetry; apply Nat.ltb_ge; lia).
  replace (Nat.ltb _ _) with false by (symmetry; apply Nat.ltb_ge; lia).
  rewrite L.
  replace (34 + (1 + length sid) + 2 + 1 + 2)%nat with (length ((version ++ random ++ [len sid] ++ sid ++ suite ++ [comp]) ++ be 2 (len (s_exts es))))
    by (rewrite app_length, be_length, P; lia).
  assert (B' : body = ((version ++ random ++ [len sid] ++ sid ++ suite ++ [comp]) ++ be 2 (len (s_exts es))) ++ s_exts es ++ [])
    by (rewrite app_nil_r, B; apply app_assoc).
  rewrite B'. apply find_version_exts; [exact He|].
  assert (length es <= length (s_exts es))%nat; [|lia].
  clear. induction es as [|e es IH]; [cbn; lia|]. unfold s_exts. cbn [flat_map length]. rewrite app_length, s_ext_len. fold (s_exts es). lia.
Qed.
