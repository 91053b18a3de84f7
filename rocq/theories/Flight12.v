(** The datagrams of a DTLS 1.2 server between its ServerHelloDone and the client's
    Finished: only the flight that was made before. *)
From Verif Require Import Prelude PreludeFacts Types Codec Codec12 Record12 Monad MonadFacts Timer Env
  Config Aead Prf Window Context12 Engine12 Client12 Server12 Engine12Frame Send12Proofs History12
  History12Facts EndFrame12 Queue12Proofs View12 Poll12Proofs Evidence12 ClientInv12 ClientStep12 ServerInv12 ServerStep12 Events12 Auth12 Timer12Proofs Tx12Proofs Phase12 Cookie12.

(** Unprotected handshake records with fragments from [A], after nothing or a datagram of [Q]. *)
Definition made_of (Q A : bytes -> Prop) (d : bytes) : Prop :=
  exists q (rs : list (N * bytes)), d = q ++ concat (map (fun x => s_rec12 CT_HS V_DTLS12 0 (fst x) (snd x)) rs) /\
    (q = [] \/ Q q) /\ Forall (fun x => A (snd x)) rs.
Definition plain_entry (A : bytes -> Prop) (x : Entry12) : Prop := exists f, x = (CT_HS, 0, f) /\ A f.
Definition FI (Q A : bytes -> Prop) (em : list bytes) (e : Eng12) : Prop :=
  Forall (made_of Q A) (em ++ en_tx e) /\ Forall (plain_entry A) (en_saved e).

Section Made.
Variables Q A : bytes -> Prop.
Variable E : Env.
Variable em : list bytes.
Let R (a b : Eng12) : Prop := FI Q A em a -> FI Q A em b.
Lemma fi_po : preorder R.
Proof. split; unfold R; auto. Qed.
Lemma fi_cri save fn f : A f -> pres R (create_record_inner E CT_HS 0 save fn f).
Proof.
  intros Hf s. apply (wp_mono _ _ (fun _ s' => FI Q A em s -> FI Q A em s') s (create_record_spec E CT_HS 0 save fn f s)).
  intros r s' (o & sv & H) [H1 H2].
  assert (S1 : forall sv, sv = en_saved s \/ save = true /\ sv = en_saved s ++ [(CT_HS, 0, f)] -> Forall (plain_entry A) sv).
  { intros sv' [-> | [_ ->]]; [exact H2|]. apply Forall_app. split; [exact H2|]. constructor; [|constructor]. exists f. auto. }
  destruct r as [u|x|n]; [|destruct H as (B & -> & _); split; [exact H1|exact (S1 _ B)]..].
  destruct H as (B & _ & frag & P & _ & ->). unfold payload_of in P. cbn [N.eqb] in P. subst frag.
  split; [|apply S1; subst sv; destruct save; auto]. cbn [N.eqb]. set (n := cur_seq 0 s). clearbody n. cbn [en_tx set_en_tx].
  destruct (can_append _ _ _) eqn:Ha.
  - apply can_append_nonnil in Ha. destruct (snoc_case _ Ha) as (q & b & Hq).
    rewrite Hq in *. rewrite append_last_snoc. rewrite app_assoc in *. apply Forall_app in H1. destruct H1 as [B1 B2]. apply Forall_app. split; [exact B1|].
    inversion B2 as [|? ? (q0 & rs & C1 & C0 & C2) _]; subst. constructor; [|constructor]. exists q0, (rs ++ [(n, f)]).
    rewrite map_app, concat_app. cbn [map concat fst snd]. rewrite app_nil_r, app_assoc. split; [reflexivity|]. split; [exact C0|]. apply Forall_app. split; [exact C2|]. constructor; [exact Hf|constructor].
  - rewrite app_assoc. apply Forall_app. split; [exact H1|]. constructor; [|constructor].
    exists [], [(n, f)]. split; [cbn [map concat fst snd app]; rewrite app_nil_r; reflexivity|]. split; [auto|]. constructor; [exact Hf|constructor].
Qed.
Lemma fi_resend_loop rp : forall es fs, Forall (plain_entry A) es -> pres R (resend_loop E rp fs es).
Proof.
  induction es as [|[[ct ep] f] es IH]; intros fs H; cbn [resend_loop]; [apply pres_ret, fi_po|].
  inversion H as [|? ? K H']; subst. destruct K as (f' & [= -> -> ->] & Hf). apply pres_bind; [apply fi_po|apply fi_cri, Hf|intros _; apply IH, H'].
Qed.
Lemma fi_resend : pres R (flight_resend E).
Proof.
  intros s [H1 H2]. unfold flight_resend, bind, get.
  destruct (negb (en_release s)); cbn [when]; unfold modify, ret; apply fi_resend_loop; try exact H2; split; try assumption.
  cbn. apply Forall_app in H1. rewrite app_nil_r. apply H1.
Qed.
Ltac fipre := first [apply fi_po | intros; intro; assumption | apply fi_resend].
Lemma fi_parse p : pres R (eng12_parse_packet E p).
Proof. apply fr3_parse_packet; fipre. Qed.
Lemma fi_timeout now : pres R (eng12_handle_timeout E now).
Proof. apply fr3_handle_timeout; fipre. Qed.
Lemma fi_flight_begin : pres R (flight_begin E).
Proof. intros s [B C]. split; [exact B|constructor]. Qed.
Lemma fi_create mt mk : (forall x, A x) -> mt12_epoch mt = 0 -> pres R mk -> pres R (create_handshake E mt mk).
Proof.
  intros HA Hm H. unfold create_handshake. rewrite Hm.
  assert (G : forall fuel total seq prot off rest, pres R (frag_loop E fuel mt total seq 0 prot off rest)).
  { induction fuel as [|fuel IH]; intros; cbn [frag_loop]; presauto fi_po ltac:(first [apply IH | apply fi_cri, HA]). }
  presauto fi_po ltac:(first [exact H | apply G | apply pres_modify; intros ? K; exact K | unfold create_record; apply fi_cri, HA]).
Qed.
Ltac engl :=
  first [ apply fr_next_handshake; fipre | apply fr_next_record; fipre | apply fr_drop_ccs; fipre | apply fr3_enable_peer; fipre
        | apply fr_crypto_op; fipre | apply fr_draw; fipre | apply fr_rand_bytes; fipre | apply fr_gvd; fipre
        | apply pres_modify; intros ? K; exact K ].
Let RS : Server12 -> Server12 -> Prop := History12Facts.RS R.
Let RS_po : preorder RS.
Proof. split; unfold RS, History12Facts.RS, R; auto. Qed.
Ltac sl := first [ apply (lf_seng R); solve [presauto fi_po engl] | apply pres_modify; intros ? K; exact K ].
Lemma fi_wait st : 6 <= s_rank st -> s_rank st < 11 -> pres RS (s_step E st).
Proof.
  intros H1 H2. destruct st; cbn [s_rank] in *; try (exfalso; lia); unfold_s_step; presauto RS_po sl.
Qed.
Lemma fi_before st : (forall x, A x) -> s_rank st < 6 -> pres RS (s_step E st).
Proof.
  intros HA H2.
  destruct st; cbn [s_rank] in *; try (exfalso; lia); unfold_s_step;
    presauto RS_po ltac:(first [ sl
      | apply (lf_seng R); first [ apply fi_flight_begin | apply fr_reset_server; fipre | apply fr_set_suite; fipre
          | apply fi_create; [exact HA|reflexivity|]; unfold create_server_hello, create_certificate12, create_server_key_exchange; presauto fi_po engl ] ]).
Qed.
End Made.

(** A server in the states with rank in [\[lo, 11)] keeps [P] until it leaves them. *)
Section Band.
Variable E : Env.
Variable P : Eng12 -> Prop.
Variable lo : N.
Let R (a b : Eng12) : Prop := P a -> P b.
Hypothesis HS : forall st, lo <= s_rank st -> s_rank st < 11 -> pres (History12Facts.RS R) (s_step E st).
Hypothesis HN : forall st, lo <= s_rank st -> rets (fun st' => lo <= s_rank st') (s_step E st).
Hypothesis H_orc : forall v e, P e -> P (set_en_orc v e).
Hypothesis H_parse : forall p, pres R (eng12_parse_packet E p).
Hypothesis H_timeout : forall now, pres R (eng12_handle_timeout E now).
Definition band (c : Server12) : Prop := 11 <= s_rank (sv_state c) \/ lo <= s_rank (sv_state c) /\ P (sv_eng c).
Let Q (a b : Server12) : Prop := band a -> band b.
Let Q_po : preorder Q. Proof. split; unfold Q; auto. Qed.
Lemma late_stays st : 11 <= s_rank st -> rets (fun st' => 11 <= s_rank st') (s_step E st).
Proof.
  intros H. destruct st; cbn [s_rank] in H; try (exfalso; lia); unfold_s_step; rets ltac:(idtac);
    repeat (match goal with |- _ <= s_rank (if ?b then _ else _) => destruct b | |- _ <= s_rank (match ?b with _ => _ end) => destruct b end); cbn [s_rank]; lia.
Qed.
Lemma band_step c r c' : band c -> s_step E (sv_state c) c = (r, c') ->
  band c' /\ match r with Ok st => band (set_sv_state st c') | _ => True end.
Proof.
  intros H HR. pose proof (s_step_state E (sv_state c) c) as S. cbv beta in S. rewrite HR in S. cbn [snd] in S.
  destruct (N.le_gt_cases 11 (s_rank (sv_state c))) as [L|L].
  - split; [left; rewrite S; exact L|]. pose proof (late_stays _ L c) as K. rewrite HR in K. cbn [fst] in K. destruct r; [|exact I..]. left. exact K.
  - destruct H as [H|[H1 H2]]; [lia|]. pose proof (HS _ H1 L c) as K. rewrite HR in K. cbn [snd] in K. specialize (K H2).
    split; [right; rewrite S; auto|]. pose proof (HN _ H1 c) as K2. rewrite HR in K2. cbn [fst] in K2. destruct r; [|exact I..]. right. split; [exact K2|exact K].
Qed.
Lemma band_progress n : pres Q (s_progress E n).
Proof.
  induction n as [|n IH]; intros c I; [exact I|].
  cbn [s_progress]. apply (wp_bind get _ (fun _ c' => band c')), wp_get, wp_bind, wp_intro.
  intros r c' H. destruct (band_step c r c' I H) as [K1 K2]. destruct r as [st|x|x]; [|exact K1..].
  destruct (sstate12_eqb (sv_state c) st); [apply wp_ret; exact K1|]. apply wp_bind, wp_modify.
  apply (wp_pres Q _ _ IH). exact K2.
Qed.
Lemma band_seng {X} (m : M Eng12 X) : pres R m -> pres Q (seng m).
Proof.
  intros K c. unfold seng, zoom. specialize (K (sv_eng c)). destruct (m (sv_eng c)) as [r e]. unfold Q, band. cbn [snd sv_state set_sv_eng sv_eng] in *.
  intros [H|[H1 H2]]; auto.
Qed.
Lemma band_call k : (forall cap, k <> Poll cap) -> pres Q (server12_call E k).
Proof.
  intros NP. assert (RPO : preorder R) by (split; unfold R; auto).
  destruct k as [p|cap|now|d|]; cbn [server12_call]; unfold no_output.
  - unfold server12_handle_packet, s_make_progress. presauto Q_po ltac:(first [apply lf_public | apply band_progress | apply band_seng, H_parse]).
  - exfalso. eapply NP; reflexivity.
  - unfold server12_handle_timeout, s_make_progress.
    presauto Q_po ltac:(first [apply lf_public | apply band_progress | apply band_seng, H_timeout
      | apply band_seng, fr_random_with_time; [exact RPO|intros; intro; apply H_orc; assumption] | apply pres_modify; intros ? K; exact K]).
  - intros c I. unfold server12_send, bind, get. destruct (sv_state c) eqn:Hs;
      try (unfold modify, ret, fail; cbn [snd]; unfold band in *; cbn [sv_state set_sv_queued sv_eng]; rewrite ?Hs in *; exact I).
    unfold seng, zoom. destruct (create_record E CT_APP 1 false d (sv_eng c)) as [[a|x|x] e]; left; cbn; rewrite Hs; cbn; lia.
  - intros c I. unfold server12_close, bind, get. destruct (sv_state c) eqn:Hs;
      try (unfold seng, zoom, eng12_abort, modify, ret; left; cbn; lia); [|left; cbn; rewrite Hs; cbn; lia].
    unfold seng, zoom. destruct (create_record E CT_ALERT 1 false [1; 0] (sv_eng c)) as [[a|x|x] e]; left; cbn; rewrite ?Hs; cbn; lia.
Qed.
End Band.
Lemma s_step_wait E st : 6 <= s_rank st -> rets (fun st' => 6 <= s_rank st') (s_step E st).
Proof.
  intros H. destruct st; cbn [s_rank] in H; try (exfalso; lia); unfold_s_step; rets ltac:(idtac);
    repeat (match goal with |- _ <= s_rank (if ?b then _ else _) => destruct b | |- _ <= s_rank (match ?b with _ => _ end) => destruct b end); cbn [s_rank]; lia.
Qed.

(** Over a history. *)
Section Hist.
Variable E : Env.
Variables Q A : bytes -> Prop.
Variable lo : N.
Hypothesis HL : lo = 6 \/ lo = 0 /\ forall x, A x.
Lemma band_history s0 h s : history E s0 h s ->
  match s0 with Sv c0 => band (FI Q A []) lo c0 | Cl _ => True end ->
  match s with Sv c => band (FI Q A (packets_of (outputs h))) lo c | Cl _ => True end.
Proof.
  intros H. induction H as [|h s k r s' H IH NP C]; [auto|]. intros H0. specialize (IH H0).
  pose proof (call_role _ _ _ _ _ C) as CR. destruct s as [x|c], s' as [x'|c']; try contradiction; [exact I|].
  destruct (match k with Poll _ => true | _ => false end) eqn:Hk.
  - destruct k; try discriminate. rewrite packets_snoc. destruct (poll_state _ _ _ _ _ C) as (S & _). unfold band. rewrite S.
    destruct IH as [IH|[I1 I2]]; [left; exact IH|right]. split; [exact I1|].
    refine (wire_poll E (FI Q A) _ _ _ _ _ _ _ _ C I2).
    + intros em v x K. exact K.
    + intros em v x K. exact K.
    + intros em p l x Hx [K1 K2]. split; [|exact K2]. cbn. rewrite <- app_assoc. cbn [app]. rewrite <- Hx. exact K1.
  - assert (NPk : forall cap, k <> Poll cap) by (intros cap ->; discriminate).
    rewrite packets_snoc, (nonpoll_no_packet E k _ r _ NPk C), app_nil_r. apply server_call_of in C.
    pose proof (band_call E (FI Q A (packets_of (outputs h))) lo) as B.
    assert (B1 : forall st, lo <= s_rank st -> s_rank st < 11 -> pres (History12Facts.RS (fun a b => FI Q A (packets_of (outputs h)) a -> FI Q A (packets_of (outputs h)) b)) (s_step E st)).
    { intros st L1 L2. destruct (N.lt_ge_cases (s_rank st) 6) as [L|L]; [|apply fi_wait; assumption].
      destruct HL as [-> |[-> HA]]; [lia|]. apply fi_before; assumption. }
    assert (B2 : forall st, lo <= s_rank st -> rets (fun st' => lo <= s_rank st') (s_step E st)).
    { intros st L. destruct HL as [-> |[-> _]]; [apply s_step_wait, L|]. intros x. destruct (s_step E st x) as [[| |] ?]; cbn; auto. lia. }
    specialize (B B1 B2 (fun v e K => K) (fi_parse Q A E _) (fi_timeout Q A E _) k NPk c). rewrite C in B. cbn [snd] in B. exact (B IH).
Qed.
End Hist.
