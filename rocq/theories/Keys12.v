(** The traffic keys of a DTLS 1.2 endpoint: when they are present, where they come
    from, and that receive protection is on once the handshake is past the peer's
    ChangeCipherSpec. *)
From Coq Require Import String.
Close Scope string_scope.
From Verif Require Import Prelude PreludeFacts Types Codec Codec12 Record12 Monad MonadFacts Timer Env
  Config Aead Prf Window Context12 Engine12 Client12 Server12 Engine12Frame Send12Proofs History12
  History12Facts EndFrame12 View12 Poll12Proofs Timer12Proofs
  ClientInv12 ClientStep12 ServerInv12 ServerStep12 Events12 Lift12 Step12.

Lemma prf_loop_length E h secret ls fuel : forall a n out,
  prf_loop E h secret ls fuel a n = Some out -> length out = n.
Proof.
  induction fuel as [|fuel IH]; intros a n out; destruct n as [|n]; cbn [prf_loop]; try discriminate;
    try (intros [= <-]; reflexivity).
  destruct (e_hmac E h secret (a ++ ls)) as [blk|]; [|discriminate].
  destruct (Nat.ltb_spec (Nat.min (S n) (length blk)) (S n)).
  - destruct (e_hmac E h secret a) as [a'|]; [|discriminate].
    destruct (prf_loop _ _ _ _ _ _ _) as [r|] eqn:Hr; [|discriminate].
    intros [= <-]. rewrite app_length, firstn_length. apply IH in Hr. rewrite Hr. clear -H. set (l := length blk) in *. clearbody l. change (match l with 0%nat => 0%nat | S m' => S (Nat.min n m') end) with (Nat.min (S n) l). lia.
  - intros [= <-]. rewrite firstn_length. clear -H. set (l := length blk) in *. clearbody l. change (match l with 0%nat => 0%nat | S m' => S (Nat.min n m') end) with (Nat.min (S n) l). lia.
Qed.
Lemma prf_length E h secret label seed n out : prf_tls12 E h secret label seed n = Some out -> length out = n.
Proof.
  unfold prf_tls12. destruct (e_hmac _ _ _ _); [|discriminate]. apply prf_loop_length.
Qed.

Section Keys.
Variable E : Env.

(** The record layout follows the selected suite. *)
Definition linked (e : Eng12) : Prop :=
  match en_suite e with
  | None => en_enl e = 0%nat /\ en_minp e = 0%nat
  | Some cs => exists i, find12 E cs = Some i /\ en_enl e = s12_enl i /\ en_minp e = (s12_enl i + s12_tag i)%nat
  end.

(** All four traffic keys are cut from the key block of the selected suite. *)
Definition keyed (e : Eng12) : Prop :=
  exists cs i ms cr sr kb,
    en_suite e = Some cs /\ find12 E cs = Some i /\
    k_ms (en_crypto e) = Some ms /\ k_crandom (en_crypto e) = Some cr /\ k_srandom (en_crypto e) = Some sr /\
    prf_tls12 E (suite12_hash cs) ms (str "key expansion"%string) (sr ++ cr) (2 * (s12_mac i + s12_key i + s12_iv i)) = Some kb /\
    let m := s12_mac i in let k := s12_key i in let v := s12_iv i in
    k_ccipher (en_crypto e) = Some (cs, slice (2 * m) k kb) /\
    k_scipher (en_crypto e) = Some (cs, slice (2 * m + k) k kb) /\
    k_civ (en_crypto e) = Some (slice (2 * m + 2 * k) v kb) /\
    k_siv (en_crypto e) = Some (slice (2 * m + 2 * k + v) v kb).

Lemma derive_keyed cs cr sr e k : en_suite e = Some cs -> derive_keys E cs cr sr (en_crypto e) = (true, k) ->
  keyed (set_en_crypto k e).
Proof.
  intros Hs. unfold derive_keys. destruct (k_ms (en_crypto e)) as [ms|] eqn:Hm; [|discriminate].
  destruct (find12 E cs) as [i|] eqn:Hi; [|discriminate].
  destruct (prf_tls12 _ _ _ _ _ _) as [kb|] eqn:Hp; [|discriminate].
  destruct (e_mkcipher E cs _); [|discriminate]. destruct (e_mkcipher E cs _); [|discriminate].
  intros [= <-]. exists cs, i, ms, cr, sr, kb. repeat split; assumption.
Qed.

(** ** What does not touch the keys *)

Definition same_keys12 (a b : Eng12) : Prop :=
  en_crypto b = en_crypto a /\ en_suite b = en_suite a /\ en_enl b = en_enl a /\ en_minp b = en_minp a /\
  en_client b = en_client a.
Lemma sk_po : preorder same_keys12.
Proof. split; unfold same_keys12; intros; [repeat split|]. intuition congruence. Qed.
Lemma sk_linked a b : same_keys12 a b -> linked a -> linked b.
Proof. intros (H1 & H2 & H3 & H4 & _). unfold linked. rewrite H2, H3, H4. auto. Qed.
Lemma sk_keyed a b : same_keys12 a b -> keyed a -> keyed b.
Proof. intros (H1 & H2 & H3 & H4 & _). unfold keyed. rewrite H1, H2. auto. Qed.

Ltac skpre := first [exact sk_po | intros; repeat split; reflexivity].

Definition sk_penc (a b : Eng12) : Prop := same_keys12 a b /\ en_penc b = en_penc a.
Lemma skp_po : preorder sk_penc.
Proof. split; unfold sk_penc; intros; [split; [apply sk_po|reflexivity]|]. destruct H, H0. split; [eapply sk_po; eauto|congruence]. Qed.
Ltac skppre := first [exact skp_po | intros; repeat split; reflexivity].

Lemma skp_late : late_frame E sk_penc.
Proof.
  constructor;
  first
    [ solve [skppre]
    | solve [intros; apply fr_create_record; skppre]
    | solve [intros; apply fr_create_handshake; first [assumption|skppre]]
    | solve [intros; apply fr_next_handshake; skppre]
    | solve [intros; apply fr_next_record; skppre]
    | solve [apply fr_drop_ccs; skppre]
    | solve [apply fr_reset_server; skppre] | solve [apply fr_reset_client; skppre]
    | solve [apply fr_flight_begin; skppre]
    | solve [apply fr_flight_stop; skppre]
    | solve [apply fr_release; skppre] | solve [apply fr_discard; skppre] ].
Qed.
Lemma skp_parse p : pres sk_penc (eng12_parse_packet E p).
Proof. apply fr_parse_packet; skppre. Qed.
Lemma skp_timeout now : pres sk_penc (eng12_handle_timeout E now).
Proof. apply fr_handle_timeout; skppre. Qed.
Lemma skp_poll cap now : pres sk_penc (eng12_poll_output cap now).
Proof. apply fr_poll_output; skppre. Qed.
Lemma skp_random now : pres sk_penc (random_with_time E now).
Proof. apply fr_random_with_time; skppre. Qed.

(** Receive protection is changed by [enable_peer_encryption] only. *)
Definition pe (a b : Eng12) : Prop := en_penc b = en_penc a.
Lemma pe_po : preorder pe.
Proof. split; unfold pe; congruence. Qed.
Ltac pepre := first [exact pe_po | intros; reflexivity].
Lemma pe_mid : mid_frame E pe.
Proof.
  constructor; [constructor|..];
  first
    [ solve [pepre]
    | solve [intros; apply fr_create_record; pepre]
    | solve [intros; apply fr_create_handshake; first [assumption|pepre]]
    | solve [intros; apply fr_next_handshake; pepre]
    | solve [intros; apply fr_next_record; pepre]
    | solve [apply fr_drop_ccs; pepre]
    | solve [apply fr_reset_server; pepre] | solve [apply fr_reset_client; pepre]
    | solve [apply fr_flight_begin; pepre]
    | solve [apply fr_flight_stop; pepre]
    | solve [intros; apply fr_set_suite; pepre]
    | solve [apply fr_release; pepre] | solve [apply fr_discard; pepre] ].
Qed.

Lemma enable_sk : pres same_keys12 (enable_peer_encryption E).
Proof. apply fr_enable_peer; skpre. Qed.
Lemma enable_on e : wp (enable_peer_encryption E) (fun _ e' => en_penc e' = true) e.
Proof.
  unfold enable_peer_encryption. apply wp_bind, wp_modify, wp_bind, wp_get.
  destruct (split_epoch1 _) as [keep again]. apply wp_bind, wp_modify.
  eapply wp_mono; [apply (wp_pres pe), (pres_iterM pe pe_po); intro r; apply fr_parse_packet; pepre|].
  cbv beta. intros r e' H. rewrite H. reflexivity.
Qed.

(** [linked] *)
Definition Rl (a b : Eng12) : Prop := linked a -> linked b.
Lemma Rl_po : preorder Rl.
Proof. split; unfold Rl; auto. Qed.
Lemma linked_frame : eng_frame E Rl.
Proof.
  frame_all ltac:(first [exact Rl_po | intros; exact (fun H => H)]).
  intros cs s. unfold set_cipher_suite. destruct (find12 E cs) as [i|] eqn:Hi; [|exact (fun H => H)].
  cbn. intros _. unfold linked. cbn. exists i. auto.
Qed.

Ltac res_only := repeat (cbv beta; lazymatch goal with
  | |- wp (bind _ _) _ _ => apply wp_any; intros
  | |- wp (ret _) _ _ => apply wp_ret
  | |- wp (fail _) _ _ => exact I
  | |- wp (panic _) _ _ => exact I
  | |- wp (match ?x with _ => _ end) _ _ => destruct x
  | |- wp (let '(_, _) := ?x in _) _ _ => destruct x
  end).

(** ** Client *)

Lemma c_step_next st c : wp (c_step E st) (fun r _ => match r with
  | Ok st' => (c_rank st < 10 -> c_rank st' <= 10) /\
              (c_rank st = 10 \/ c_rank st = 11 -> c_rank st' = c_rank st + 1) /\
              (c_rank st = 12 -> c_rank st' = 12 \/ c_rank st' = 13) /\
              (13 <= c_rank st -> 13 <= c_rank st')
  | _ => True end) c.
Proof.
  destruct st; unfold_c_step; cbv zeta; res_only;
    repeat match goal with |- context [if ?b then _ else _] => destruct b end;
    cbn [c_rank]; lia.
Qed.

Lemma derive_spec cs cr sr e : en_suite e = Some cs ->
  wp (crypto_op (derive_keys E cs cr sr)) (fun r e' => match r with Ok _ => keyed e' | _ => True end) e.
Proof.
  intros Hs. unfold wp, crypto_op. destruct (derive_keys E cs cr sr (en_crypto e)) as [b k] eqn:Hd.
  destruct b; cbn [fst snd]; [|exact I]. eapply derive_keyed; eassumption.
Qed.

Lemma c_ccs_keyed c : wp (c_send_change_cipher_spec E) (fun r c' => match r with Ok _ => keyed (cl_eng c') | _ => True end) c.
Proof.
  unfold c_send_change_cipher_spec, c_derive_keys. apply wp_bind, wp_bind, wp_get, wp_bind. unfold of_opt.
  destruct (en_suite (cl_eng c)) as [cs|] eqn:Hs; [|exact I]. apply wp_ret, wp_bind.
  destruct (cl_srandom c) as [sr|]; [|exact I]. apply wp_ret.
  destruct (cl_random c) as [cr|]; [|exact I]. apply wp_bind.
  destruct (cl_sh c) as [sh|]; [|exact I]. apply wp_ret. apply wp_bind. unfold ceng. apply wp_zoom.
  apply wp_intro. intros r e1 H1.
  assert (S1 : en_suite e1 = Some cs).
  { unfold crypto_op in H1. destruct (derive_ems _ _ _ _); injection H1 as <- <-; exact Hs. }
  destruct r; [|exact I..]. apply wp_zoom. eapply wp_mono; [apply (derive_spec cs cr sr e1 S1)|]. cbv beta.
  intros r e2 K. destruct r; [|exact I..]. apply wp_bind, wp_zoom.
  eapply wp_mono; [apply (wp_pres same_keys12); apply fr_create_record; skpre|]. cbv beta. intros r e3 S3.
  destruct r; [|exact I..]. apply wp_ret. ecbn. ecbn_in S3. eapply sk_keyed; eassumption.
Qed.

Lemma c_ccs_step c : wp (c_await_change_cipher_spec E) (fun r c' => same_keys12 (cl_eng c) (cl_eng c') /\
  (en_penc (cl_eng c) = true -> en_penc (cl_eng c') = true) /\
  match r with Ok st' => c_rank st' = 13 -> en_penc (cl_eng c') = true | _ => True end) c.
Proof.
  unfold c_await_change_cipher_spec. apply wp_bind. unfold ceng. apply wp_zoom.
  eapply wp_mono; [apply (wp_pres sk_penc), (tf_next_record _ _ skp_late)|]. cbv beta. intros r e1 (S1 & P1).
  destruct r as [o|x|x]; [|ecbn; rewrite P1; auto..]. destruct o; [|apply wp_ret; ecbn; rewrite P1; split; [exact S1|split; [auto|discriminate]]].
  apply wp_bind, wp_zoom. eapply wp_mono; [apply (wp_pres sk_penc), (tf_drop_ccs _ _ skp_late)|]. cbv beta. ecbn. intros r2 e2 (S2 & P2).
  assert (S3 : same_keys12 (cl_eng c) e2) by (eapply sk_po; eauto).
  destruct r2; [|rewrite P2, P1; auto..].
  apply wp_bind, wp_zoom. eapply wp_mono; [apply (wp_conj _ _ _ _ (wp_pres same_keys12 _ _ enable_sk) (enable_on _))|].
  cbv beta. ecbn. intros r3 e3 (S4 & P3). assert (S5 : same_keys12 (cl_eng c) e3) by (eapply sk_po; eauto).
  destruct r3; [apply wp_ret|..]; ecbn; auto.
Qed.

Definition kst_c (_ : list bytes) (_ : list Output) (st : CState12) (e : Eng12) : Prop :=
  linked e /\ (en_penc e = true -> keyed e) /\ (en_release e = true -> en_penc e = true) /\
  match st with
  | CS_Closed => True
  | _ => (11 <= c_rank st -> keyed e) /\ (13 <= c_rank st -> en_penc e = true) /\ (en_penc e = true -> 12 <= c_rank st)
  end.

Lemma kst_c_same pk os pk' os' st a b : sk_penc a b -> en_release b = en_release a -> kst_c pk os st a -> kst_c pk' os' st b.
Proof.
  intros (S & P) R (L & K1 & K2 & K3). split; [eapply sk_linked; eauto|]. rewrite P, R.
  split; [intro; eapply sk_keyed; eauto|]. split; [exact K2|].
  destruct st; try exact I; destruct K3 as (A & B & C); (split; [intro; eapply sk_keyed; eauto|split; assumption]).
Qed.
Lemma kst_c_closed pk os pk' os' st a : kst_c pk os st a -> kst_c pk' os' CS_Closed a.
Proof. intros (L & K1 & K2 & _). repeat split; assumption. Qed.

Ltac rlia := cbn [c_rank s_rank] in *; lia.
Lemma c_step_kst pk os st c : inv_c E st c -> kst_c pk os st (cl_eng c) ->
  wp (c_step E st) (fun r c' => match r with Ok st' => kst_c pk os st' (cl_eng c') | _ => kst_c pk os st (cl_eng c') end) c.
Proof.
  intros I0 (L & K1 & K2 & K3). apply wp_intro. intros r c' Hr.
  pose proof (wp_run _ _ _ _ _ Hr (inv_c_step E st c I0)) as P. cbv beta in P.
  pose proof (wp_run _ _ _ _ _ Hr (c_step_next st c)) as N0. cbv beta in N0.
  assert (L' : linked (cl_eng c')).
  { pose proof (lf_c_step E Rl linked_frame st c) as W. unfold History12Facts.RC in W. rewrite Hr in W. apply W, L. }
  assert (Rel : forall st1, inv_c E st1 c' -> c_rank st1 < 15 -> en_release (cl_eng c') = true -> en_penc (cl_eng c') = true).
  { intros st1 I1 H1 H2. rewrite (inv_low_release E st1 c' H1 I1) in H2. discriminate. }
  assert (Low : c_rank st < 10 \/ c_rank st = 10 -> en_penc (cl_eng c') = false).
  { intros Hlow. pose proof (ml_c_step E pe pe_mid st ltac:(lia) c) as W. unfold History12Facts.RC, pe in W. rewrite Hr in W. cbn [snd] in W. rewrite W.
    destruct (en_penc (cl_eng c)) eqn:Hp; [|reflexivity]. destruct st; cbn [c_rank] in Hlow; try lia; destruct K3 as (_ & _ & K3); specialize (K3 eq_refl); cbn [c_rank] in K3; lia. }
  assert (Late : 11 <= c_rank st -> c_rank st <> 12 -> sk_penc (cl_eng c) (cl_eng c')).
  { intros H1 H2. pose proof (tl_c_step E sk_penc skp_late st H1 H2 c) as W. unfold History12Facts.RC in W. rewrite Hr in W. exact W. }
  assert (Fin : forall st1, inv_c E st1 c' -> c_rank st1 < 15 -> (en_penc (cl_eng c') = true -> keyed (cl_eng c')) ->
     (11 <= c_rank st1 -> keyed (cl_eng c')) -> (13 <= c_rank st1 -> en_penc (cl_eng c') = true) -> (en_penc (cl_eng c') = true -> 12 <= c_rank st1) ->
     kst_c pk os st1 (cl_eng c')).
  { intros st1 I1 H1 H2 H3 H4 H5. split; [exact L'|]. split; [exact H2|]. split; [eapply Rel; eauto|]. destruct st1; auto. }
  destruct (c_rank st <? 10) eqn:R10; [apply N.ltb_lt in R10|apply N.ltb_ge in R10].
  { specialize (Low (or_introl R10)).
    destruct r as [st'|x|x]; cbn [post] in P; (apply Fin; [exact P|rlia|rewrite Low; discriminate|rlia|rlia|rewrite Low; discriminate]). }
  destruct (N.eq_dec (c_rank st) 10) as [E10|N10].
  { specialize (Low (or_intror E10)). 
    assert (Hst : st = CS_SendChangeCipherSpec) by (destruct st; cbn [c_rank] in E10; try lia; reflexivity). subst st.
    pose proof (wp_run _ _ _ _ _ Hr (c_ccs_keyed c)) as K. cbv beta in K.
    destruct r as [st'|x|x]; cbn [post] in P.
    - apply Fin; [exact P|rlia|auto|auto|rlia|rewrite Low; discriminate].
    - apply Fin; [exact P|rlia|rewrite Low; discriminate|rlia|rlia|rewrite Low; discriminate].
    - apply Fin; [exact P|rlia|rewrite Low; discriminate|rlia|rlia|rewrite Low; discriminate]. }
  destruct (N.eq_dec (c_rank st) 12) as [E12|N12].
  {
    assert (Hst : st = CS_AwaitChangeCipherSpec) by (destruct st; cbn [c_rank] in E12; try lia; reflexivity). subst st.
    pose proof (wp_run _ _ _ _ _ Hr (c_ccs_step c)) as (S & M & Q). cbn [c_rank] in *.
    assert (Kd : keyed (cl_eng c')) by (eapply sk_keyed; [exact S|apply K3; lia]).
    destruct r as [st'|x|x]; cbn [post] in P.
    - apply Fin; [exact P|rlia|auto|auto| |intros; rlia]. intro. apply Q. lia.
    - apply Fin; [exact P|rlia|auto|auto|rlia|intros; rlia].
    - apply Fin; [exact P|rlia|auto|auto|rlia|intros; rlia]. }
  destruct (N.eq_dec (c_rank st) 16) as [E16|N16].
  { assert (Hst : st = CS_Closed) by (destruct st; cbn [c_rank] in E16; try lia; reflexivity). subst st.
    cbn [c_step] in Hr. unfold ret in Hr. injection Hr as <- <-. repeat split; assumption. }
  assert (R11 : 11 <= c_rank st) by lia. specialize (Late R11 N12). destruct Late as (S & Pe).
  assert (Kd : keyed (cl_eng c')) by (eapply sk_keyed; [exact S|destruct st; cbn [c_rank] in *; try lia; apply K3; lia]).
  destruct (N.eq_dec (c_rank st) 11) as [E11|N11].
  {
    assert (P0 : en_penc (cl_eng c') = true -> 12 <= c_rank st).
    { rewrite Pe. intro Hp. destruct st; cbn [c_rank] in *; try lia. apply K3, Hp. }
    destruct r as [st'|x|x]; cbn [post] in P; (apply Fin; [exact P|rlia|auto|auto|rlia|intro Hp; specialize (P0 Hp); rlia]). }
  assert (Hp : en_penc (cl_eng c') = true).
  { rewrite Pe. destruct st; cbn [c_rank] in *; try lia; apply K3; lia. }
  assert (Fin2 : forall st1, 13 <= c_rank st1 -> kst_c pk os st1 (cl_eng c')).
  { intros st1 H. split; [exact L'|]. split; [auto|]. split; [auto|]. destruct st1; auto; cbn [c_rank] in *; repeat split; intros; auto; lia. }
  destruct r; apply Fin2; rlia.
Qed.

Lemma kst_c_pres {A} (m : M Eng12 A) pk os st e : pres sk_penc m -> pres (fun a b => en_release b = en_release a) m ->
  kst_c pk os st e -> wp m (fun _ e' => forall pk' os', kst_c pk' os' st e') e.
Proof.
  intros H1 H2 K. eapply wp_mono; [apply (wp_conj _ _ _ _ (wp_pres sk_penc _ _ H1) (wp_pres _ _ _ H2))|].
  cbv beta. intros r e' (S & R) pk' os'. eapply kst_c_same; eauto.
Qed.

Definition rl (a b : Eng12) : Prop := en_release b = en_release a.
Lemma rl_po : preorder rl.
Proof. split; unfold rl; congruence. Qed.
Ltac rlpre := first [exact rl_po | intros; reflexivity].

Lemma kst_c_lift : c_lift E kst_c.
Proof.
  constructor.
  - exact c_step_kst.
  - intros p pk os st e _ K. eapply wp_mono; [apply (kst_c_pres _ pk os st e (skp_parse p)); [apply (fr_parse_packet E rl); rlpre|exact K]|auto].
  - intros p pk os st e K. exact K.
  - intros now pk os st e K. eapply wp_mono; [apply (kst_c_pres _ pk os st e (skp_timeout now)); [apply (fr_handle_timeout E rl); rlpre|exact K]|auto].
  - intros now pk os st e K. eapply wp_mono; [apply (kst_c_pres _ pk os st e (skp_random now)); [apply (fr_random_with_time E rl); rlpre|exact K]|auto].
  - intros d pk os e _ K. eapply wp_mono; [apply (kst_c_pres _ pk os CS_AwaitApplicationData e (tf_create_record _ _ skp_late _ _ _ _)); [apply (fr_create_record E rl); rlpre|exact K]|auto].
  - intros pk os e _ K. eapply wp_mono; [apply (kst_c_pres _ pk os CS_AwaitApplicationData e (tf_create_record _ _ skp_late _ _ _ _)); [apply (fr_create_record E rl); rlpre|exact K]|].
    cbv beta. intros r e' Q. split; [apply Q|]. destruct r; auto. eapply kst_c_closed. apply (Q pk os).
  - intros pk os st e K. unfold eng12_abort. apply wp_modify. apply (kst_c_same pk os pk os _ e); [| |apply (kst_c_closed pk os pk os st), K]; repeat split.
  - intros cap now pk os st e K. eapply wp_mono; [apply (kst_c_pres _ pk os st e (skp_poll cap now)); [apply (fr_poll_output rl); rlpre|exact K]|auto].
  - intros o pk os st e _ K. exact K.
Qed.

(** ** Server *)

Lemma s_step_next st c : wp (s_step E st) (fun r _ => match r with
  | Ok st' => (s_rank st < 7 -> s_rank st' <= 7) /\
              (s_rank st = 7 -> 7 <= s_rank st' <= 9) /\
              (s_rank st = 8 -> 8 <= s_rank st' <= 9) /\
              (s_rank st = 9 -> s_rank st' = 9 \/ s_rank st' = 10) /\
              (10 <= s_rank st -> 10 <= s_rank st')
  | _ => True end) c.
Proof.
  destruct st; unfold_s_step; cbv zeta; res_only;
    repeat match goal with |- context [if ?b then _ else _] => destruct b end;
    cbn [s_rank]; lia.
Qed.

Lemma s_cke_suite cs k c : wp (s_process_cke E cs k) (fun _ c' => en_suite (sv_eng c') = en_suite (sv_eng c)) c.
Proof.
  assert (PO : preorder (fun a b : Server12 => en_suite (sv_eng b) = en_suite (sv_eng a))) by (split; congruence).
  assert (Hz : forall A (m : M Eng12 A), pres (fun a b => en_suite b = en_suite a) m -> pres (fun a b => en_suite (sv_eng b) = en_suite (sv_eng a)) (seng m)).
  { intros A m H x. unfold seng, zoom. specialize (H (sv_eng x)). destruct (m (sv_eng x)). exact H. }
  assert (Q : preorder (fun a b : Eng12 => en_suite b = en_suite a)) by (split; congruence).
  apply (wp_pres (fun a b : Server12 => en_suite (sv_eng b) = en_suite (sv_eng a))).
  unfold s_process_cke. presauto PO ltac:(first [apply Hz; first [apply pres_modify; reflexivity
    | apply (fr_rand_bytes E _ Q); reflexivity | apply (fr_crypto_op _ Q); reflexivity] | apply pres_modify; reflexivity]).
Qed.

Lemma s_cke_keyed c : wp (s_await_client_key_exchange E) (fun r c' => match r with Ok st' => s_rank st' <> 7 -> keyed (sv_eng c') | _ => True end) c.
Proof.
  unfold s_await_client_key_exchange. apply wp_bind, wp_intro. intros o c1 _.
  destruct o as [[m|]|x|x]; [|apply wp_ret; intro H; exfalso; apply H; reflexivity|exact I..].
  destruct (m_body m); try exact I. apply wp_bind, wp_get, wp_bind. unfold of_opt.
  destruct (en_suite (sv_eng c1)) as [cs|] eqn:Hs; [|exact I]. apply wp_ret, wp_bind.
  eapply wp_mono; [apply s_cke_suite|]. cbv beta. intros r c2 S2. destruct r; [|exact I..].
  apply wp_bind, wp_get. cbv zeta. apply wp_bind, wp_modify.
  destruct (sv_crandom c2) as [cr|]; [|exact I]. destruct (sv_random c2) as [sr|]; [|exact I].
  apply wp_bind. unfold seng. apply wp_zoom, wp_intro. ecbn. intros r e1 H1.
  assert (S1 : en_suite e1 = Some cs).
  { rewrite <- Hs, <- S2. unfold crypto_op in H1. destruct (derive_ems _ _ _ _); injection H1 as <- <-; reflexivity. }
  destruct r; [|exact I..]. apply wp_bind, wp_zoom. eapply wp_mono; [apply (derive_spec cs cr sr e1 S1)|]. cbv beta.
  intros r e2 K. destruct r; [|exact I..]. apply wp_bind, wp_get, wp_ret. ecbn. intros _. exact K.
Qed.

Lemma s_ccs_step c : wp (s_await_change_cipher_spec E) (fun r c' => same_keys12 (sv_eng c) (sv_eng c') /\
  (en_penc (sv_eng c) = true -> en_penc (sv_eng c') = true) /\
  match r with Ok st' => s_rank st' = 10 -> en_penc (sv_eng c') = true | _ => True end) c.
Proof.
  unfold s_await_change_cipher_spec. apply wp_bind. unfold seng. apply wp_zoom.
  eapply wp_mono; [apply (wp_pres sk_penc), (tf_next_record _ _ skp_late)|]. cbv beta. intros r e1 (S1 & P1).
  destruct r as [o|x|x]; [|ecbn; rewrite P1; auto..]. destruct o; [|apply wp_ret; ecbn; rewrite P1; split; [exact S1|split; [auto|discriminate]]].
  apply wp_bind, wp_zoom. eapply wp_mono; [apply (wp_pres sk_penc), (tf_drop_ccs _ _ skp_late)|]. cbv beta. ecbn. intros r2 e2 (S2 & P2).
  assert (S3 : same_keys12 (sv_eng c) e2) by (eapply sk_po; eauto).
  destruct r2; [|rewrite P2, P1; auto..].
  apply wp_bind, wp_zoom. eapply wp_mono; [apply (wp_conj _ _ _ _ (wp_pres same_keys12 _ _ enable_sk) (enable_on _))|].
  cbv beta. ecbn. intros r3 e3 (S4 & P3). assert (S5 : same_keys12 (sv_eng c) e3) by (eapply sk_po; eauto).
  destruct r3; [apply wp_ret|..]; ecbn; auto.
Qed.

Definition kst_s (_ : list bytes) (_ : list Output) (st : SState12) (e : Eng12) : Prop :=
  linked e /\ (en_penc e = true -> keyed e) /\ (en_release e = true -> en_penc e = true) /\
  match st with
  | SS_Closed => True
  | _ => (8 <= s_rank st -> keyed e) /\ (10 <= s_rank st -> en_penc e = true) /\ (en_penc e = true -> 9 <= s_rank st)
  end.

Lemma kst_s_same pk os pk' os' st a b : sk_penc a b -> en_release b = en_release a -> kst_s pk os st a -> kst_s pk' os' st b.
Proof.
  intros (S & P) R (L & K1 & K2 & K3). split; [eapply sk_linked; eauto|]. rewrite P, R.
  split; [intro; eapply sk_keyed; eauto|]. split; [exact K2|].
  destruct st; try exact I; destruct K3 as (A & B & C); (split; [intro; eapply sk_keyed; eauto|split; assumption]).
Qed.
Lemma kst_s_closed pk os pk' os' st a : kst_s pk os st a -> kst_s pk' os' SS_Closed a.
Proof. intros (L & K1 & K2 & _). repeat split; assumption. Qed.

Lemma s_step_kst pk os st c : inv_s E st c -> kst_s pk os st (sv_eng c) ->
  wp (s_step E st) (fun r c' => match r with Ok st' => kst_s pk os st' (sv_eng c') | _ => kst_s pk os st (sv_eng c') end) c.
Proof.
  intros I0 (L & K1 & K2 & K3). apply wp_intro. intros r c' Hr.
  pose proof (wp_run _ _ _ _ _ Hr (inv_s_step E st c I0)) as P. cbv beta in P.
  pose proof (wp_run _ _ _ _ _ Hr (s_step_next st c)) as N0. cbv beta in N0.
  assert (L' : linked (sv_eng c')).
  { pose proof (lf_s_step E Rl linked_frame st c) as W. unfold History12Facts.RS in W. rewrite Hr in W. apply W, L. }
  assert (Rel : forall st1, inv_s E st1 c' -> s_rank st1 < 13 -> en_release (sv_eng c') = true -> en_penc (sv_eng c') = true).
  { intros st1 I1 H1 H2. rewrite (inv_s_low_release E st1 c' H1 I1) in H2. discriminate. }
  assert (Low : s_rank st < 8 -> en_penc (sv_eng c') = false).
  { intros Hlow. pose proof (ml_s_step E pe pe_mid st ltac:(lia) c) as W. unfold History12Facts.RS, pe in W. rewrite Hr in W. cbn [snd] in W. rewrite W.
    destruct (en_penc (sv_eng c)) eqn:Hp; [|reflexivity]. destruct st; cbn [s_rank] in Hlow; try lia; destruct K3 as (_ & _ & K3); specialize (K3 eq_refl); cbn [s_rank] in K3; lia. }
  assert (Late : 8 <= s_rank st -> s_rank st <> 9 -> sk_penc (sv_eng c) (sv_eng c')).
  { intros H1 H2. pose proof (tl_s_step E sk_penc skp_late st H1 H2 c) as W. unfold History12Facts.RS in W. rewrite Hr in W. exact W. }
  assert (Fin : forall st1, inv_s E st1 c' -> s_rank st1 < 13 -> (en_penc (sv_eng c') = true -> keyed (sv_eng c')) ->
     (8 <= s_rank st1 -> keyed (sv_eng c')) -> (10 <= s_rank st1 -> en_penc (sv_eng c') = true) -> (en_penc (sv_eng c') = true -> 9 <= s_rank st1) ->
     kst_s pk os st1 (sv_eng c')).
  { intros st1 I1 H1 H2 H3 H4 H5. split; [exact L'|]. split; [exact H2|]. split; [eapply Rel; eauto|]. destruct st1; auto. }
  destruct (s_rank st <? 7) eqn:R10; [apply N.ltb_lt in R10|apply N.ltb_ge in R10].
  { specialize (Low ltac:(lia)).
    destruct r as [st'|x|x]; cbn [post_s] in P; (apply Fin; [exact P|rlia|rewrite Low; discriminate|rlia|rlia|rewrite Low; discriminate]). }
  destruct (N.eq_dec (s_rank st) 7) as [E10|N10].
  { specialize (Low ltac:(lia)).
    assert (Hst : st = SS_AwaitClientKeyExchange) by (destruct st; cbn [s_rank] in E10; try lia; reflexivity). subst st.
    pose proof (wp_run _ _ _ _ _ Hr (s_cke_keyed c)) as K. cbv beta in K.
    destruct r as [st'|x|x]; cbn [post_s] in P.
    - apply Fin; [exact P|rlia|rewrite Low; discriminate|intro; apply K; rlia|rlia|rewrite Low; discriminate].
    - apply Fin; [exact P|rlia|rewrite Low; discriminate|rlia|rlia|rewrite Low; discriminate].
    - apply Fin; [exact P|rlia|rewrite Low; discriminate|rlia|rlia|rewrite Low; discriminate]. }
  destruct (N.eq_dec (s_rank st) 9) as [E12|N12].
  { assert (Hst : st = SS_AwaitChangeCipherSpec) by (destruct st; cbn [s_rank] in E12; try lia; reflexivity). subst st.
    pose proof (wp_run _ _ _ _ _ Hr (s_ccs_step c)) as (S & M & Q). cbn [s_rank] in *.
    assert (Kd : keyed (sv_eng c')) by (eapply sk_keyed; [exact S|apply K3; lia]).
    destruct r as [st'|x|x]; cbn [post_s] in P.
    - apply Fin; [exact P|rlia|auto|auto| |intros; rlia]. intro. apply Q. lia.
    - apply Fin; [exact P|rlia|auto|auto|rlia|intros; rlia].
    - apply Fin; [exact P|rlia|auto|auto|rlia|intros; rlia]. }
  destruct (N.eq_dec (s_rank st) 14) as [E16|N16].
  { assert (Hst : st = SS_Closed) by (destruct st; cbn [s_rank] in E16; try lia; reflexivity). subst st.
    cbn [s_step] in Hr. unfold ret in Hr. injection Hr as <- <-. repeat split; assumption. }
  assert (R11 : 8 <= s_rank st) by lia. specialize (Late R11 N12). destruct Late as (S & Pe).
  assert (Kd : keyed (sv_eng c')) by (eapply sk_keyed; [exact S|destruct st; cbn [s_rank] in *; try lia; apply K3; lia]).
  destruct (N.eq_dec (s_rank st) 8) as [E11|N11].
  { assert (P0 : en_penc (sv_eng c') = true -> 9 <= s_rank st).
    { rewrite Pe. intro Hp. destruct st; cbn [s_rank] in *; try lia. apply K3, Hp. }
    destruct r as [st'|x|x]; cbn [post_s] in P; (apply Fin; [exact P|rlia|auto|auto|rlia|intro Hp; specialize (P0 Hp); rlia]). }
  assert (Hp : en_penc (sv_eng c') = true).
  { rewrite Pe. destruct st; cbn [s_rank] in *; try lia; apply K3; lia. }
  assert (Fin2 : forall st1, 10 <= s_rank st1 -> kst_s pk os st1 (sv_eng c')).
  { intros st1 H. split; [exact L'|]. split; [auto|]. split; [auto|]. destruct st1; auto; cbn [s_rank] in *; repeat split; intros; auto; lia. }
  destruct r; apply Fin2; rlia.
Qed.

Lemma kst_s_pres {A} (m : M Eng12 A) pk os st e : pres sk_penc m -> pres (fun a b => en_release b = en_release a) m ->
  kst_s pk os st e -> wp m (fun _ e' => forall pk' os', kst_s pk' os' st e') e.
Proof.
  intros H1 H2 K. eapply wp_mono; [apply (wp_conj _ _ _ _ (wp_pres sk_penc _ _ H1) (wp_pres _ _ _ H2))|].
  cbv beta. intros r e' (S & R) pk' os'. eapply kst_s_same; eauto.
Qed.

Lemma kst_s_lift : s_lift E kst_s.
Proof.
  constructor.
  - exact s_step_kst.
  - intros p pk os st e _ K. eapply wp_mono; [apply (kst_s_pres _ pk os st e (skp_parse p)); [apply (fr_parse_packet E rl); rlpre|exact K]|auto].
  - intros p pk os st e K. exact K.
  - intros now pk os st e K. eapply wp_mono; [apply (kst_s_pres _ pk os st e (skp_timeout now)); [apply (fr_handle_timeout E rl); rlpre|exact K]|auto].
  - intros now pk os st e K. eapply wp_mono; [apply (kst_s_pres _ pk os st e (skp_random now)); [apply (fr_random_with_time E rl); rlpre|exact K]|auto].
  - intros d pk os e _ K. eapply wp_mono; [apply (kst_s_pres _ pk os SS_AwaitApplicationData e (tf_create_record _ _ skp_late _ _ _ _)); [apply (fr_create_record E rl); rlpre|exact K]|auto].
  - intros pk os e _ K. eapply wp_mono; [apply (kst_s_pres _ pk os SS_AwaitApplicationData e (tf_create_record _ _ skp_late _ _ _ _)); [apply (fr_create_record E rl); rlpre|exact K]|].
    cbv beta. intros r e' Q. split; [apply Q|]. destruct r; auto. eapply kst_s_closed. apply (Q pk os).
  - intros pk os st e K. unfold eng12_abort. apply wp_modify. apply (kst_s_same pk os pk os _ e); [| |apply (kst_s_closed pk os pk os st), K]; repeat split.
  - intros cap now pk os st e K. eapply wp_mono; [apply (kst_s_pres _ pk os st e (skp_poll cap now)); [apply (fr_poll_output rl); rlpre|exact K]|auto].
  - intros o pk os st e _ K. exact K.
Qed.

(** ** Histories *)

Definition kst (s : End12) : Prop :=
  match s with Cl c => kst_c [] [] (cl_state c) (cl_eng c) | Sv c => kst_s [] [] (sv_state c) (sv_eng c) end.

Lemma start_eng cfg auth s : start12 E cfg auth s ->
  exists b o, end_eng s = set_en_orc o (set_en_client b (eng12_new E cfg auth)) /\
    match s with Cl c => cl_state c = CS_SendClientHello | Sv c => sv_state c = SS_AwaitClientHello end.
Proof.
  induction 1 as [now|s H (b & o & IH & S)|c H (b & o & IH & S)].
  - exists false. eexists. split; reflexivity.
  - exists true. eexists. split; [|reflexivity]. cbn in *. rewrite IH. reflexivity.
  - exists false. eexists. split; [|reflexivity]. cbn in *. rewrite IH. reflexivity.
Qed.

Lemma reach_kst cfg auth h s : reach12 E cfg auth h s -> kst s.
Proof.
  intros H. pose proof (lift_reach E kst_c kst_s kst_c_lift kst_s_lift cfg auth h s) as K.
  assert (J : Jend kst_c kst_s (received h) (outputs h) s); [apply K; [|exact H]|].
  - intros s0 H0. destruct (start_eng cfg auth s0 H0) as (b & o & He & Hs).
    destruct s0; cbn [Jend end_eng] in *; rewrite He, Hs; (split; [split; reflexivity|]);
      (split; [discriminate|]); (split; [discriminate|]); cbn [c_rank s_rank]; (split; [lia|split; [lia|discriminate]]).
  - destruct s; exact J.
Qed.
End Keys.
