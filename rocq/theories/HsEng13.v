(** What the engine's operations do to the transcript, the suite and the secrets of a
    DTLS 1.3 handshake. *)
From Coq Require Import String.
From Verif Require Import Prelude PreludeFacts Types Codec Codec12 Codec13 Record12 Record13 Monad MonadFacts
  Timer Env Config Prf Window Engine12 Client12 Engine13 Client13 Server13 Frame13 Lift13 Evidence12 Evidence13
  ClientInv12.
Close Scope string_scope.

(** Handshake state kept; only the transcript grows.  [G0] leaves the exporter secret
    open. *)
Definition G0 (a b : Eng13) : Prop :=
  g_cfg b = g_cfg a /\ g_suite b = g_suite a /\ starts_with (g_transcript b) (g_transcript a).
Definition G (a b : Eng13) : Prop := G0 a b /\ g_exp b = g_exp a.
(** Nothing of it changed at all. *)
Definition GT (a b : Eng13) : Prop :=
  g_cfg b = g_cfg a /\ g_suite b = g_suite a /\ g_transcript b = g_transcript a /\ g_exp b = g_exp a.

Lemma G0_po : preorder G0.
Proof.
  split; [intro a; repeat split; apply starts_with_refl|].
  intros a b c (H1 & H2 & H3) (K1 & K2 & K3). repeat split; try congruence. eapply starts_with_trans; eassumption.
Qed.
Lemma G_po : preorder G.
Proof.
  split; [intro a; split; [apply G0_po|reflexivity]|].
  intros a b c [H1 H2] [K1 K2]. split; [eapply G0_po; eassumption|congruence].
Qed.
Lemma GT_po : preorder GT.
Proof.
  split; [intro a; repeat split|]. intros a b c (H1 & H2 & H3 & H4) (K1 & K2 & K3 & K4). repeat split; congruence.
Qed.
Lemma GT_G a b : GT a b -> G a b.
Proof. intros (H1 & H2 & H3 & H4). repeat split; auto. rewrite H3. apply starts_with_refl. Qed.
Lemma G_G0 a b : G a b -> G0 a b.
Proof. intros [H _]; exact H. Qed.

Section HsEng.
Variable E : Env.

Ltac gpre := first [exact GT_po | intros; repeat split; reflexivity].
Lemma gt_plain ct sv f : pres GT (create_plain13 ct sv f).
Proof. fr13 gpre. Qed.
Lemma gt_cipher ct ep sv f : pres GT (create_cipher13 E ct ep sv f).
Proof. fr13 gpre. Qed.
Lemma gt_frag fuel mt total seq ep prot off rest : pres GT (frag_loop13 E fuel mt total seq ep prot off rest).
Proof. apply (fr_frag_loop13 E GT GT_po gt_plain gt_cipher). Qed.
Lemma gt_key_update b : pres GT (create_key_update E b).
Proof. fr13 gpre. Qed.
Lemma gt_begin : pres GT (flight_begin13 E).
Proof. fr13 gpre. Qed.
Lemma gt_needs : pres GT take_needs_key_update.
Proof. fr13 gpre. Qed.
Lemma gt_advance : pres GT advance_peer.
Proof. fr13 gpre. Qed.
Lemma gt_reset : pres GT reset_for_hello_retry.
Proof. fr13 gpre. Qed.
Lemma gt_install_hs a b : pres GT (install_handshake_keys E a b).
Proof. fr13 gpre. Qed.
Lemma gt_install_app a b : pres GT (install_application_keys E a b).
Proof. fr13 gpre. Qed.
Lemma gt_enable : pres GT (enable_peer_encryption13 E).
Proof. fr13 gpre. Qed.
Lemma gt_release : pres GT release13.
Proof. fr13 gpre. Qed.
Lemma gt_release_ret : pres GT release13_retaining.
Proof. fr13 gpre. Qed.
Lemma gt_update_recv : pres GT (update_recv_keys E).
Proof. fr13 gpre. Qed.
Lemma gt_send_ack : pres GT (send_ack13 E).
Proof. fr13 gpre. Qed.
Lemma gt_send_ack_ret : pres GT (send_ack_retransmittable E).
Proof. fr13 gpre. Qed.
Lemma gt_stop : pres GT stop_timers13.
Proof. fr13 gpre. Qed.
Lemma gt_cancel : pres GT cancel_flights.
Proof. fr13 gpre. Qed.
Lemma gt_abort : pres GT eng13_abort.
Proof. fr13 gpre. Qed.
Lemma gt_parse p : pres GT (eng13_parse_packet E p).
Proof. fr13 gpre. Qed.
Lemma gt_poll cap now : pres GT (eng13_poll_output cap now).
Proof. fr13 gpre. Qed.
Lemma gt_timeout now : pres GT (eng13_handle_timeout E now).
Proof. fr13 gpre. Qed.
Lemma gt_draw : pres GT draw13.
Proof. fr13 gpre. Qed.
Lemma gt_draw_spec e : wp draw13 (fun r e' => GT e e' /\ match r with Ok _ => True | _ => False end) e.
Proof. unfold wp, draw13. cbn. split; [repeat split|exact I]. Qed.
Lemma gt_keying p : pres GT (keying13 E p).
Proof. apply (op_keying E _ GT_po). Qed.

(** *** Messages *)

Lemma be_cong k : forall a b, a mod 256 ^ N.of_nat k = b mod 256 ^ N.of_nat k -> be k a = be k b.
Proof.
  induction k as [|k IH]; intros a b H; [reflexivity|]. cbn [be].
  replace (N.of_nat (S k)) with (N.succ (N.of_nat k)) in H by lia. rewrite N.pow_succ_r' in H.
  rewrite !N.mod_mul_r in H by (try apply N.pow_nonzero; discriminate).
  pose proof (N.mod_lt a 256 ltac:(discriminate)). pose proof (N.mod_lt b 256 ltac:(discriminate)).
  assert (K : a mod 256 = b mod 256 /\ (a / 256) mod 256 ^ N.of_nat k = (b / 256) mod 256 ^ N.of_nat k).
  { generalize dependent ((a / 256) mod 256 ^ N.of_nat k). generalize dependent ((b / 256) mod 256 ^ N.of_nat k).
    generalize dependent (a mod 256). generalize dependent (b mod 256). intros. lia. }
  destruct K as [-> K]. rewrite (IH _ _ K). reflexivity.
Qed.
Lemma be3_u32 n : be 3 (u32 n) = be 3 n.
Proof.
  apply be_cong. unfold u32. change (2 ^ 32) with (256 ^ N.of_nat 3 * 256). rewrite N.mod_mul_r by discriminate.
  rewrite N.mul_comm, N.mod_add by discriminate. apply N.mod_mod. discriminate.
Qed.

Lemma next_msg a b w e :
  wp (next_handshake13_gen a b w) (fun r e' =>
    match r with
    | Ok (Some m) => g_cfg e' = g_cfg e /\ g_suite e' = g_suite e /\ g_exp e' = g_exp e /\
        g_transcript e' = g_transcript e ++ (if b then tmsg13 (n_type m) (n_raw m) else []) /\
        exists rest, p_body13 a (n_type m) (g_suite e) (n_raw m) = Some (n_body m, rest) /\
          (rest = [] \/ mt13_known (n_type m) = false)
    | _ => GT e e'
    end) e.
Proof.
  unfold next_handshake13_gen. apply wp_bind, wp_get. destruct (negb _); [apply wp_ret, GT_po|].
  destruct (skip_while _ _) as [|first more]; [apply wp_panic, GT_po|].
  destruct (Nat.ltb _ _); [apply wp_fail, GT_po|].
  destruct (len _ =? f_length first) eqn:Hl; [|apply wp_fail, GT_po]. cbn [negb].
  destruct (p_body13 _ _ _ _) as [[body rest]|] eqn:Hp.
  - apply wp_bind, wp_modify. destruct (negb (is_nil rest) && mt13_known (f_type first)) eqn:Hr; [apply wp_fail; repeat split|].
    apply wp_bind. assert (K : rest = [] \/ mt13_known (f_type first) = false).
    { destruct rest; [left; reflexivity|right]. destruct (mt13_known _); [discriminate|reflexivity]. }
    apply N.eqb_eq in Hl. unfold when. destruct b.
    + apply wp_modify, wp_ret. cbn. repeat (split; [reflexivity|]). split; [|exists rest; split; assumption].
      unfold transcript13, tmsg13. rewrite <- Hl. reflexivity.
    + apply wp_ret, wp_ret. cbn. repeat (split; [reflexivity|]). split; [symmetry; apply app_nil_r|].
      exists rest. split; assumption.
  - apply wp_bind, wp_modify, wp_fail. repeat split.
Qed.

Lemma create_msg mt mk e : (forall e, GT e (snd (mk e))) ->
  wp (create_handshake13 E mt mk) (fun r e' => G e e' /\
    match r with
    | Ok _ => exists body, fst (mk e) = Ok body /\ g_transcript e' = g_transcript e ++ tmsg13 mt body
    | _ => True
    end) e.
Proof.
  intros H. specialize (H e). unfold create_handshake13. apply wp_bind. unfold wp at 1.
  destruct (mk e) as [[body|err|n] e1]; cbn [fst snd] in *; [|split; [apply GT_G, H|exact I]..].
  apply wp_bind, wp_get, wp_bind, wp_modify, wp_bind, wp_modify.
  set (e2 := set_g_next_hs _ _).
  assert (K : g_cfg e2 = g_cfg e /\ g_suite e2 = g_suite e /\ g_exp e2 = g_exp e /\
              g_transcript e2 = g_transcript e ++ tmsg13 mt body).
  { destruct H as (H1 & H2 & H3 & H4). unfold e2. cbn -[be u32 transcript13 tmsg13]. rewrite H1, H2, H3, H4. repeat (split; [reflexivity|]).
    unfold transcript13, tmsg13. rewrite be3_u32. reflexivity. }
  clearbody e2.
  match goal with |- wp ?m _ _ => assert (P : pres GT m) end.
  { presauto GT_po ltac:(first [apply gt_frag|apply gt_plain|apply gt_cipher|apply (op_suite_provider E _ GT_po)]). }
  specialize (P e2). unfold wp. 
  match goal with |- context [snd (?m e2)] => destruct (m e2) as [[[]|err|n] e3] end; cbn [fst snd] in *;
    destruct K as (K1 & K2 & K3 & K4), P as (P1 & P2 & P3 & P4);
    (split; [split; [split; [congruence|split; [congruence|rewrite P3, K4; apply starts_with_app]]|congruence]|]); auto.
  exists body. split; [reflexivity|congruence].
Qed.

(** *** Secrets *)

Lemma of_opt_spec {S A} e (o : option A) (Q : res A -> S -> Prop) s :
  (forall a, o = Some a -> Q (Ok a) s) -> Q (Err e) s -> wp (of_opt e o) Q s.
Proof. intros H1 H2. destruct o as [a|]; cbn [of_opt]; [apply wp_ret, H1; reflexivity|apply wp_fail, H2]. Qed.

Lemma hash_alg_spec (Q : res N -> Eng13 -> Prop) e : (forall cs, g_suite e = Some cs -> Q (Ok (suite13_hash cs)) e) ->
  (g_suite e = None -> Q (Panic 1606) e) -> wp hash_alg13 Q e.
Proof.
  intros H1 H2. unfold hash_alg13. apply wp_bind, wp_get. destruct (g_suite e) as [cs|]; [apply wp_ret|apply wp_panic]; auto.
Qed.
Lemma transcript_hash_spec e : wp (transcript_hash13 E) (fun r e' => e' = e /\
  match r with Ok h => exists cs, g_suite e = Some cs /\ h = e_hash E (suite13_hash cs) (g_transcript e) | _ => True end) e.
Proof.
  unfold transcript_hash13. apply wp_bind, hash_alg_spec; [|intros; split; auto].
  intros cs Hs. apply wp_bind, wp_get, wp_ret. split; [reflexivity|]. exists cs. auto.
Qed.
Lemma derive_hs_spec shared e : wp (derive_handshake_secrets E shared) (fun r e' => e' = e /\
  match r with
  | Ok q => exists cs, g_suite e = Some cs /\
      schedule13 E cs shared (g_transcript e) (fst (fst q)) (snd (fst q)) (snd q)
  | _ => True
  end) e.
Proof.
  unfold derive_handshake_secrets, extract13, label13. apply wp_bind, hash_alg_spec; [|intros; split; auto].
  intros cs Hs. apply wp_bind, of_opt_spec; [|split; auto]. intros early H1.
  apply wp_bind, of_opt_spec; [|split; auto]. intros derived H2.
  apply wp_bind, of_opt_spec; [|split; auto]. intros hs H3.
  apply wp_bind. eapply wp_mono; [apply transcript_hash_spec|]. intros [th|?|?] e' [-> K]; [|split; auto..].
  destruct K as (cs' & K1 & ->). assert (cs' = cs) by congruence. subst cs'.
  apply wp_bind, of_opt_spec; [|split; auto]. intros c H4.
  apply wp_bind, of_opt_spec; [|split; auto]. intros s H5.
  apply wp_ret. split; [reflexivity|]. exists cs. split; [exact Hs|]. exists early, derived. unfold labelled. cbn [fst snd]. auto 10.
Qed.
Lemma derive_app_spec hs e : wp (derive_application_secrets E hs) (fun r e' => G0 e e' /\ g_transcript e' = g_transcript e /\
  match r with
  | Ok _ => exists cs exp, g_suite e = Some cs /\ g_exp e' = Some exp /\ exporter13 E cs hs (g_transcript e) exp
  | _ => True
  end) e.
Proof.
  assert (R : G0 e e) by apply G0_po.
  unfold derive_application_secrets, extract13, label13. apply wp_bind, hash_alg_spec; [|intros; split; auto].
  intros cs Hs. apply wp_bind, of_opt_spec; [|split; auto]. intros derived H1.
  apply wp_bind, of_opt_spec; [|split; auto]. intros master H2.
  apply wp_bind. eapply wp_mono; [apply transcript_hash_spec|]. intros [th|?|?] e' [-> K]; [|split; auto..].
  destruct K as (cs' & K1 & ->). assert (cs' = cs) by congruence. subst cs'.
  apply wp_bind, of_opt_spec; [|split; auto]. intros exp H4.
  apply wp_bind, of_opt_spec; [|split; auto]. intros c H5.
  apply wp_bind, of_opt_spec; [|split; auto]. intros s H6.
  apply wp_bind, wp_modify, wp_ret. cbn. split; [repeat split; apply starts_with_refl|]. split; [reflexivity|].
  exists cs, exp. split; [exact Hs|]. split; [reflexivity|]. exists derived, master. unfold labelled. auto.
Qed.
Lemma verify_data_spec secret e : wp (compute_verify_data E secret) (fun r e' => e' = e /\
  match r with
  | Ok vd => exists cs, g_suite e = Some cs /\ verify_data13 E cs secret (g_transcript e) vd
  | _ => True
  end) e.
Proof.
  unfold compute_verify_data, extract13, label13. apply wp_bind, hash_alg_spec; [|intros; split; auto].
  intros cs Hs. apply wp_bind, of_opt_spec; [|split; auto]. intros fk H1.
  apply wp_bind. eapply wp_mono; [apply transcript_hash_spec|]. intros [th|?|?] e' [-> K]; [|split; auto..].
  destruct K as (cs' & K1 & ->). assert (cs' = cs) by congruence. subst cs'.
  apply of_opt_spec; [|split; auto]. intros vd H2. split; [reflexivity|]. exists cs. split; [exact Hs|].
  exists fk. unfold labelled. auto.
Qed.
Lemma check_cv_spec context hash certs scheme sig e :
  wp (check_certificate_verify E context hash certs scheme sig) (fun r e' => e' = e /\
    match r with
    | Ok _ => exists leaf, hd_error certs = Some leaf /\ In scheme schemes13_supported /\
        e_cert_group E leaf = Some (scheme_group scheme) /\
        e_verify E leaf (repeat 32 64 ++ context ++ hash) sig (scheme_hash scheme) SIG_ECDSA = true
    | _ => True
    end) e.
Proof.
  unfold check_certificate_verify. destruct (memN scheme schemes13_supported) eqn:Hm; [|apply wp_fail; auto]. cbn [negb].
  destruct (512 <? len sig); [apply wp_fail; auto|]. destruct certs as [|leaf more]; [apply wp_fail; auto|].
  apply wp_bind. unfold verify_scheme_curve. destruct (e_cert_group E leaf) as [g|] eqn:Hg; [|apply wp_fail; auto].
  destruct (g =? scheme_group scheme) eqn:He; [|apply wp_fail; auto]. apply wp_ret.
  destruct (e_verify _ _ _ _ _ _) eqn:Hv; [|apply wp_fail; auto]. apply wp_ret. split; [reflexivity|].
  exists leaf. split; [reflexivity|]. unfold memN in Hm. apply existsb_exists in Hm. destruct Hm as (x & Hx & Hxe). apply N.eqb_eq in Hxe. subst x.
  split; [exact Hx|]. apply N.eqb_eq in He. subst g. split; [exact Hg|exact Hv].
Qed.
Lemma keying_spec p e cs : g_suite e = Some cs ->
  wp (keying13 E p) (fun r e' => e' = e /\ exists k, r = Ok k /\
    (k = [] \/ exists prof km exp, p = Some prof /\ k = [LE_Keying km prof] /\ g_exp e = Some exp /\ keying_ok13 E cs exp prof km)) e.
Proof.
  intros Hs. unfold keying13. destruct p as [prof|]; [|apply wp_ret; split; [reflexivity|exists []; auto]].
  assert (W : wp (extract_srtp13 E prof) (fun r e' => e' = e /\ match r with
     | Ok km => exists exp, g_exp e = Some exp /\ keying_ok13 E cs exp prof km | Err _ => True | Panic _ => False end) e).
  { unfold extract_srtp13, label13. apply wp_bind, hash_alg_spec; [|congruence]. intros cs' K. assert (cs' = cs) by congruence. subst cs'.
    apply wp_bind, wp_get. destruct (g_exp e) as [exp|] eqn:Hx; [|apply wp_fail; auto].
    apply wp_bind, of_opt_spec; [|split; auto]. intros d H1. apply of_opt_spec; [|split; auto]. intros km H2.
    split; [reflexivity|]. exists exp. split; [reflexivity|]. exists d. unfold labelled. auto. }
  unfold wp in *. destruct (extract_srtp13 E prof e) as [[km|err|n] e']; cbn [fst snd] in *; destruct W as [-> W]; [| |destruct W].
  - split; [reflexivity|]. exists [LE_Keying km prof]. split; [reflexivity|]. right. destruct W as (exp & W1 & W2).
    exists prof, km, exp. auto.
  - split; [reflexivity|]. exists []. auto.
Qed.
End HsEng.
