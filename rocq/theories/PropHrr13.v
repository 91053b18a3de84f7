(** C41: HelloRetryRequest at most once. *)
From Verif Require Import Prelude PreludeFacts Types Codec Codec12 Codec13 Monad MonadFacts Env Config Engine12 Client12 Engine13 Client13 Server13
  Toy History12 Conn12 History13 Frame13 Lift13 Trace13 Trace13Proofs Conn13.

(** The client follows a HelloRetryRequest: it waited for the ServerHello and goes
    back to sending a ClientHello. *)
Definition follows_retry (m : XMove) : bool :=
  let '(c, r, _) := m in
  cstate13_eqb (xc_state c) CT_AwaitServerHello &&
  match r with Ok st => cstate13_eqb st CT_SendClientHello | _ => false end.

(** The server sends a HelloRetryRequest: it waited for a ClientHello, made a
    handshake message (its next message number changed) and waits for another
    ClientHello. *)
Definition asks_retry (m : YMove) : bool :=
  let '(s, r, s') := m in
  sstate13_eqb (xs_state s) ST_AwaitClientHello &&
  match r with Ok st => sstate13_eqb st ST_AwaitClientHello | _ => false end &&
  negb (g_next_hs (xs_eng s) =? g_next_hs (xs_eng s')).

Definition pot_c (c : Client13) : N := if xc_retry c then 1 else 0.
Definition pot_s (s : Server13) : N := if xs_retry s then 1 else 0.

Definition mono_c (a b : Client13) : Prop := xc_retry b = xc_retry a.
Lemma mono_c_po : preorder mono_c.
Proof. split; unfold mono_c; congruence. Qed.
Lemma mono_c_eng {A} (m : M Eng13 A) : pres mono_c (xeng m).
Proof. intro c. unfold xeng, zoom. destruct (m (xc_eng c)). reflexivity. Qed.
Ltac mleaf := first [assumption | apply mono_c_eng | apply pres_modify; intro; reflexivity].
Lemma mono_c_hrr es : pres mono_c (hrr_extensions es).
Proof. induction es as [|[t d] es IH]; cbn [hrr_extensions]; presauto mono_c_po mleaf. Qed.
Lemma mono_c_ee es : pres mono_c (ee13_extensions es).
Proof. induction es as [|[t d] es IH]; cbn [ee13_extensions]; presauto mono_c_po mleaf. Qed.
Lemma mono_c_iter {B} (f : B -> M Eng13 unit) l : pres mono_c (iterM (fun d => xeng (f d)) l).
Proof. apply (pres_iterM _ mono_c_po). intro. apply mono_c_eng. Qed.

Lemma step_other E st : st <> CT_AwaitServerHello -> pres mono_c (x_step E st).
Proof.
  intro H. destruct st; try congruence; unfold_x_step;
    presauto mono_c_po ltac:(first [apply mono_c_ee | mleaf]).
Qed.

Lemma step_c E c r c' : x_step E (xc_state c) c = (r, c') ->
  (if follows_retry (c, r, c') then 1 else 0) + pot_c c <= pot_c c'.
Proof.
  intro H. unfold follows_retry.
  destruct (cstate13_eqb (xc_state c) CT_AwaitServerHello) eqn:Hs.
  - unfold cstate13_eqb in Hs. destruct (cstate13_eq_dec (xc_state c) CT_AwaitServerHello) as [He|]; [|discriminate].
    rewrite He in H. cbn [x_step] in H. revert H. cbn [andb].
    assert (G : wp (x_await_server_hello E) (fun r c' =>
      (match r with Ok CT_SendClientHello => xc_retry c = false /\ xc_retry c' = true | _ => mono_c c c' end)) c).
    { unfold x_await_server_hello. apply wp_bind, wp_get. apply wp_bind.
      eapply wp_mono; [apply (wp_pres mono_c), mono_c_eng|]. intros [[m|]|e|n] c1 H1; try exact H1.
      destruct (n_body m); try exact H1. destruct (is_hrr h).
      - unfold x_hello_retry. apply wp_bind, wp_get. destruct (xc_retry c1) eqn:Hr.
        + apply wp_bind. eapply wp_mono; [apply (wp_pres mono_c), mono_c_eng|].
          intros [[]|e|n] c2 H2; try (apply wp_fail); eapply mono_c_po; eassumption.
        + apply wp_bind. eapply wp_mono; [apply (wp_pres mono_c), mono_c_hrr|].
          intros [[]|e|n] c2 H2; try (eapply mono_c_po; eassumption).
          assert (M2 : mono_c c c2) by (eapply mono_c_po; eassumption). clear H2.
          destruct (negb _); [exact M2|].
          apply wp_bind. eapply wp_mono; [apply (wp_pres mono_c), mono_c_eng|].
          intros [[]|e|n] c3 H3; try (eapply mono_c_po; eassumption).
          assert (M3 : mono_c c c3) by (eapply mono_c_po; eassumption). clear H3.
          destruct (negb _); [exact M3|].
          apply wp_bind. eapply wp_mono; [apply (wp_pres mono_c), mono_c_eng|].
          intros [[]|e|n] c4 H4; try (eapply mono_c_po; eassumption).
          apply wp_bind. eapply wp_mono; [apply (wp_pres mono_c), mono_c_eng|].
          intros [[]|e|n] c5 H5; try (repeat (eapply mono_c_po; [eassumption|]); apply mono_c_po).
          apply wp_bind. eapply wp_mono; [apply (wp_pres mono_c), mono_c_eng|].
          intros [[]|e|n] c6 H6; try (repeat (eapply mono_c_po; [eassumption|]); apply mono_c_po).
          wps. split; [|reflexivity]. unfold mono_c in *. congruence.
      - eapply wp_mono with (P := fun r c' => mono_c c1 c' /\ r <> Ok CT_SendClientHello).
        + apply wp_conj.
          * apply (wp_pres mono_c). unfold x_server_hello. presauto mono_c_po mleaf.
          * apply wp_intro. intros r0 c2 H2 ->.
            assert (K : wp (x_server_hello E h) (fun r _ => r <> Ok CT_SendClientHello) c1).
            { unfold x_server_hello.
              repeat first [ apply wp_get | apply wp_bind; apply wp_get | apply wp_fail; discriminate
                | apply wp_ret; discriminate
                | lazymatch goal with
                  | |- wp (bind _ _) _ _ => apply wp_bind, wp_intro; intros [?|?|?] ? _; [|discriminate..]
                  | |- wp (match ?x with _ => _ end) _ _ => destruct x
                  end ]. }
            unfold wp in K. rewrite H2 in K. apply K. reflexivity.
        + intros r0 c2 [H2 H3]. destruct r0 as [[]|e|n]; try congruence; eapply mono_c_po; eassumption. }
    intro H. unfold wp in G. rewrite H in G. cbn [fst snd] in G.
    destruct r as [[]|e|n]; cbn; unfold mono_c in G; unfold pot_c; try (rewrite G; lia).
    destruct G as [-> ->]. lia.
  - cbn [andb]. pose proof (step_other E (xc_state c)) as K.
    assert (Hn : xc_state c <> CT_AwaitServerHello).
    { intro K'. rewrite K' in Hs. vm_compute in Hs. discriminate Hs. }
    specialize (K Hn c). rewrite H in K. unfold mono_c in K. cbn [snd] in K. unfold pot_c. rewrite K. lia.
Qed.

Definition mono_s (a b : Server13) : Prop := xs_retry b = xs_retry a.
Lemma mono_s_po : preorder mono_s.
Proof. split; unfold mono_s; congruence. Qed.
Lemma mono_s_eng {A} (m : M Eng13 A) : pres mono_s (yeng m).
Proof. intro c. unfold yeng, zoom. destruct (m (xs_eng c)). reflexivity. Qed.
Ltac sleaf := first [assumption | apply mono_s_eng | apply pres_modify; intro; reflexivity].
Lemma step_other_s E st : st <> ST_AwaitClientHello -> pres mono_s (y_step E st).
Proof. intro H. destruct st; try congruence; unfold_y_step; presauto mono_s_po sleaf. Qed.

Definition quiet_s (a b : Server13) : Prop :=
  xs_retry b = xs_retry a /\ g_next_hs (xs_eng b) = g_next_hs (xs_eng a).
Lemma quiet_s_po : preorder quiet_s.
Proof. split; unfold quiet_s; [auto|intros a b c [H1 H2] [H3 H4]; split; congruence]. Qed.
Definition await_post (s : Server13) (r : res SState13) (s' : Server13) : Prop :=
  match r with
  | Ok ST_AwaitClientHello => quiet_s s s' \/ xs_retry s = false /\ xs_retry s' = true
  | _ => mono_s s s'
  end.

Lemma retry_post E s a b c : xs_retry s = false -> wp (y_retry E a b c) (await_post s) s.
Proof.
  intro Hr. unfold y_retry, send_hello_retry.
  assert (K : forall (m : M Server13 unit) k s1, mono_s s s1 -> pres mono_s m ->
    (forall s2, mono_s s s2 -> wp (k tt) (await_post s) s2) -> wp (bind m k) (await_post s) s1).
  { intros m k s1 H1 P H2. apply wp_bind. eapply wp_mono; [apply (wp_pres mono_s), P|].
    intros [[]|e|n] s2 H3; [apply H2| |]; eapply mono_s_po; eassumption. }
  apply K; [apply mono_s_po|apply mono_s_eng|]. intros s1 H1. apply wp_bind, wp_get.
  apply K; [exact H1|apply mono_s_eng|]. intros s2 H2.
  apply K; [exact H2|presauto mono_s_po sleaf|]. intros s3 H3.
  apply K; [exact H3|apply mono_s_eng|]. intros s4 H4.
  apply K; [exact H4|apply mono_s_eng|]. intros s5 H5.
  wps. right. split; [exact Hr|reflexivity].
Qed.

Lemma accept_post E s a b c d : wp (y_accept_hello E a b c d) (fun r s' => mono_s s s' /\ r <> Ok ST_AwaitClientHello) s.
Proof.
  apply wp_conj.
  - apply (wp_pres mono_s). unfold y_accept_hello. presauto mono_s_po sleaf.
  - unfold y_accept_hello.
    repeat first [ apply wp_get | apply wp_bind; apply wp_get | apply wp_fail; discriminate
                | apply wp_ret; discriminate
                | lazymatch goal with
                  | |- wp (bind _ _) _ _ => apply wp_bind, wp_intro; intros [?|?|?] ? _; [|discriminate..]
                  | |- wp (match ?x with _ => _ end) _ _ => destruct x
                  end ].
Qed.

Lemma await_post_trans s s1 r s2 : quiet_s s s1 -> await_post s1 r s2 -> await_post s r s2.
Proof.
  intros [H1 H2] H. unfold await_post, mono_s, quiet_s in *.
  destruct r as [[]|e|n]; congruence.
Qed.
Lemma await_mono s r s' : mono_s s s' -> r <> Ok ST_AwaitClientHello -> await_post s r s'.
Proof. intros H K. destruct r as [[]|e|n]; try exact H. congruence. Qed.

Lemma select_post E s h x tlen : wp (y_select E h x tlen) (await_post s) s.
Proof.
  unfold y_select. apply wp_bind, wp_get. apply wp_bind.
  apply wp_of_opt. destruct (find _ _) as [cs|]; [|apply mono_s_po].
  apply wp_bind, wp_modify.
  assert (Q0 : quiet_s s (set_xs_csid (Some (h_sid h)) s)) by (split; reflexivity).
  set (s1 := set_xs_csid (Some (h_sid h)) s) in *.
  assert (CK : forall a b k, (forall v, wp (k v) (await_post s1) s1) -> wp (bind (cookie13 E a b) k) (await_post s1) s1).
  { intros a b k H. unfold cookie13. apply wp_bind. destruct (e_hmac _ _ _ _); [apply H|apply mono_s_po]. }
  assert (RT : xs_retry s = false -> forall a b c, wp (y_retry E a b c) (await_post s1) s1).
  { intros Hr a b c. apply retry_post. exact Hr. }
  assert (FL : forall e, wp (fail e) (await_post s1) s1) by (intro; apply mono_s_po).
  eapply wp_mono with (P := await_post s1); [|intros r s'; apply await_post_trans; exact Q0].
  assert (AC : forall g peer, wp (y_accept_hello E cs x g peer) (await_post s1) s1).
  { intros g peer. wpuse (accept_post E s1). intros r s' [H1 H2]. apply await_mono; assumption. }
  assert (KEEP : wp (yeng (modify (fun e => set_g_transcript (firstn tlen (g_transcript e)) e)) ;;;
                     ret ST_AwaitClientHello) (await_post s1) s1).
  { apply wp_bind. unfold yeng. apply wp_zoom, wp_modify, wp_ret. left. split; reflexivity. }
  destruct (find (fun e => memN (fst e) (cfg_groups E (g_cfg (xs_eng s)))) (list_of (ce_shares x))) as [[g peer]|];
  destruct (find (fun g => memN g (list_of (ce_groups x))) (cfg_groups E (g_cfg (xs_eng s)))) as [g'|];
    destruct (c_cookie _); destruct (ce_cookie x) as [ck|]; destruct (xs_retry s) eqn:Hr;
    repeat first [ apply AC | apply FL | apply (RT eq_refl) | exact KEEP | apply CK; intro
                 | match goal with |- wp (if ?b then _ else _) _ _ => destruct b end ].
Qed.

Lemma next_quiet a b w : pres (fun x y => g_next_hs y = g_next_hs x) (next_handshake13_gen a b w).
Proof. apply op_next_hs; first [split; congruence | reflexivity]. Qed.

Lemma step_s E c r c' : y_step E (xs_state c) c = (r, c') ->
  (if asks_retry (c, r, c') then 1 else 0) + pot_s c <= pot_s c'.
Proof.
  intro H. unfold asks_retry.
  destruct (sstate13_eqb (xs_state c) ST_AwaitClientHello) eqn:Hs.
  - unfold sstate13_eqb in Hs. destruct (sstate13_eq_dec (xs_state c) ST_AwaitClientHello) as [He|]; [|discriminate].
    rewrite He in H. cbn [y_step] in H.
    assert (G : wp (y_await_client_hello E) (await_post c) c).
    { unfold y_await_client_hello. apply wp_bind, wp_get. apply wp_bind.
      eapply wp_mono with (P := fun _ c1 => quiet_s c c1).
      - unfold yeng. apply wp_zoom. eapply wp_mono with (P := fun _ e => g_next_hs e = g_next_hs (xs_eng c)).
        + destruct (xs_auto c); unfold next_client_hello_auto, next_handshake13;
            apply (wp_pres (fun x y => g_next_hs y = g_next_hs x)), next_quiet.
        + intros _ e K. split; [reflexivity|exact K].
      - intros r1 c1 Q1. destruct r1 as [[m|]|e|n].
        + assert (FL : forall A (x : res A), mono_s c c1) by (intros; apply Q1).
          destruct (n_body m); try (apply Q1).
          repeat (match goal with |- wp (if ?b then _ else _) _ _ => destruct b end; [apply Q1|]).
          destruct (ch13_scan _ _) as [x|e|n]; try apply Q1.
          destruct (negb _); [destruct (xs_auto c); apply Q1|].
          eapply wp_mono; [apply (select_post E c1)|]. intros r2 c2. apply await_post_trans. exact Q1.
        + left. exact Q1.
        + apply Q1.
        + apply Q1. }
    unfold wp in G. rewrite H in G. cbn [fst snd] in G. cbn [andb]. unfold await_post in G.
    assert (Z : mono_s c c' -> 0 + pot_s c <= pot_s c') by (unfold mono_s, pot_s; intros ->; lia).
    destruct r as [st|e|n]; [|apply Z; exact G..].
    destruct st; try (apply Z; exact G).
    destruct G as [[G1 G2]|[G1 G2]].
    + rewrite G2, N.eqb_refl. apply Z. exact G1.
    + unfold pot_s. rewrite G1, G2. destruct (_ && _); lia.
  - cbn [andb]. pose proof (step_other_s E (xs_state c)) as K.
    assert (Hn : xs_state c <> ST_AwaitClientHello).
    { intro K'. rewrite K' in Hs. vm_compute in Hs. discriminate Hs. }
    specialize (K Hn c). rewrite H in K. unfold mono_s in K. cbn [snd] in K. unfold pot_s. rewrite K. lia.
Qed.

(** Over any calls on a client, at most one HelloRetryRequest is followed, and none
    once one has been. *)
Theorem C41_client_follows_one13 : forall E cs c,
  count follows_retry (x_trace E cs c) <= (if xc_retry c then 0 else 1).
Proof.
  intros E cs c.
  pose proof (pot_trace E follows_retry pot_c (fun _ _ => eq_refl) (fun _ _ => eq_refl) (fun _ _ => eq_refl)
    (fun _ _ => eq_refl) (fun _ _ => eq_refl) (fun _ _ => eq_refl) (step_c E) cs c) as H.
  unfold pot_c in H. destruct (xc_retry c), (xc_retry (fold_left _ _ _)); lia.
Qed.
Print Assumptions C41_client_follows_one13.

(** Over any calls on a server, at most one HelloRetryRequest is sent by successful
    steps, and none once one has been. *)
Theorem C41_server_sends_one13_partial : forall E cs s,
  count asks_retry (y_trace E cs s) <= (if xs_retry s then 0 else 1).
Proof.
  intros E cs c.
  pose proof (pot_trace_s E asks_retry pot_s (fun _ _ => eq_refl) (fun _ _ => eq_refl) (fun _ _ => eq_refl)
    (fun _ _ => eq_refl) (fun _ _ => eq_refl) (fun _ _ => eq_refl) (fun _ _ => eq_refl) (fun _ _ => eq_refl) (step_s E) cs c) as H.
  unfold pot_s in H. destruct (xs_retry c), (xs_retry (fold_left _ _ _)); lia.
Qed.
Print Assumptions C41_server_sends_one13_partial.

(** In the default connection (cookie exchange) each happens exactly once. *)
Example C41_case :
  match xc0 with XC c => count follows_retry (x_trace toy xc_calls c) = 1 | XS _ => False end /\
  match xs0 with XS s => count asks_retry (y_trace toy2 xs_calls s) = 1 | XC _ => False end.
Proof. split; vm_compute; reflexivity. Qed.

(** Steps that made a handshake message while waiting for a ClientHello, whether or
    not they succeeded. *)
Definition makes_retry (m : YMove) : bool :=
  let '(s, _, s') := m in
  sstate13_eqb (xs_state s) ST_AwaitClientHello && negb (g_next_hs (xs_eng s) =? g_next_hs (xs_eng s')).

(** Not so when sending the HelloRetryRequest fails half way: with a small MTU and a
    full send queue [handle_packet] reports TransmitQueueFull, the first fragment has
    been sent, and the repeated ClientHello is answered by a second
    HelloRetryRequest, with another message number. *)
Definition hello_packet : bytes := nth 0 (flat_map (fun c => match c with Packet p => [p] | _ => [] end) xs_calls) [].
Definition cfg_narrow : Config := mkConfig 64 30 1 true true 1000000000 4 40000000000 (2 ^ 23) None None None None.
Definition narrow_server : Server13 := server13_new toy2 (eng13_new toy2 cfg_narrow [48; 9] (toy_key 9) false) 0 false.
Definition narrow_calls : list Call := [Tick 5; Packet hello_packet; Poll 3000; Packet hello_packet; Poll 3000].
(** The message type and number in the only record of a plaintext datagram. *)
Definition hs_type_seq (p : bytes) : N * N := (nth 13 p 0, unbe (firstn 2 (skipn 17 p))).
Theorem C41_server_sends_one13_refuted : exists E cfg cert key cs s0,
  start13 E cfg cert key (XS s0) /\ quiet (fst (replay13 E cs (XS s0))) = true /\
  count makes_retry (y_trace E cs s0) = 2 /\
  map hs_type_seq (flat_map (fun o => match o with OPacket p => [p] | _ => [] end)
                     (outputs (fst (replay13 E cs (XS s0))))) = [(MT_ServerHello, 0); (MT_ServerHello, 1)].
Proof.
  exists toy2, cfg_narrow, [48; 9], (toy_key 9), narrow_calls, narrow_server.
  split; [constructor; constructor|]. split; [vm_compute; reflexivity|]. split; vm_compute; reflexivity.
Qed.
Print Assumptions C41_server_sends_one13_refuted.
