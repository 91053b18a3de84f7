(** The user's records of User13.v through every call of a DTLS 1.3 endpoint. *)
From Coq Require Import Permutation.
From Verif Require Import Prelude PreludeFacts Types Codec Codec12 Codec13 Record12 Record13 Monad MonadFacts Timer
  Env Config Aead Prf Window SeqRecon Engine12 Queue12Proofs Client12 Engine13 Client13 Server13 Frame13 History12 History12Facts
  History13 Lift13 Trace13 Trace13Proofs Out13 Send13Proofs Index13 Nonce13 NonceState13 Ledger12 Evidence12 Evidence13 ClientInv12 ClientStep12
  HsEng13 ClientInv13 ClientStep13 ClientDone13 ServerStep13 ServerDone13 User13.

(** Contents of the application data records and of the alerts. *)
Definition apps13 (U : list Sent13) : list bytes := map z_frag (filter (fun z => z_type z =? CT_APP) U).
Definition alerts13 (U : list Sent13) : list bytes := map z_frag (filter (fun z => z_type z =? CT_ALERT) U).
Lemma apps13_app a b : apps13 (a ++ b) = apps13 a ++ apps13 b.
Proof. unfold apps13. rewrite filter_app, map_app. reflexivity. Qed.
Lemma alerts13_app a b : alerts13 (a ++ b) = alerts13 a ++ alerts13 b.
Proof. unfold alerts13. rewrite filter_app, map_app. reflexivity. Qed.
Lemma all_apps L : Forall (fun z => z_type z = CT_APP) L -> apps13 L = map z_frag L /\ alerts13 L = [].
Proof.
  induction 1 as [|z L H _ [IH1 IH2]]; [auto|]. unfold apps13, alerts13 in *. cbn [filter]. rewrite H.
  cbn [N.eqb Pos.eqb CT_APP CT_ALERT map]. rewrite IH1, IH2. auto.
Qed.

Inductive Phase := Ph_Before | Ph_Open | Ph_Half | Ph_Done.
(** What was sent, in terms of the phase, the reports about completion [V], the data
    held back [q], the writes accepted [ws], and whether no call failed so as to
    lose a write. *)
Definition Bk (E : Env) (os : list Output) (V : list LocalEvent12) (ph : Phase) (q ws : list bytes) (ok : bool) (e : Eng13) : Prop :=
  exists U, UL E os U e /\
    match ph with
    | Ph_Before => V = [] /\ U = []
    | Ph_Open => V <> [] /\ alerts13 U = []
    | Ph_Half => V <> [] /\ alerts13 U = [[1; 0]] /\ (ok = true -> q = [])
    | Ph_Done => (V = [] /\ U = []) \/ (V <> [] /\ alerts13 U = [[1; 0]] /\ (ok = true -> q = []))
    end /\
    (exists rest, Permutation (apps13 U ++ q ++ rest) ws) /\ (ok = true -> apps13 U ++ q = ws).
Lemma Bk_ok E os V ph q ws ok ok' e : (ok' = true -> ok = true) -> Bk E os V ph q ws ok e -> Bk E os V ph q ws ok' e.
Proof. intros H (U & B1 & B2 & B3 & B4). exists U. split; [exact B1|]. split; [destruct ph; intuition|]. auto. Qed.
Lemma Bk_eng E os V ph q ws ok e e' : (forall U, RU E os U e e') -> Bk E os V ph q ws ok e -> Bk E os V ph q ws ok e'.
Proof. intros H (U & B1 & B2). exists U. split; [apply H, B1|exact B2]. Qed.
(** The held-back data leaves. *)
Lemma Bk_drain E os V q ws ok U e L q' : UL E os (U ++ L) e -> V <> [] -> alerts13 U = [] -> Forall (fun z => z_type z = CT_APP) L ->
  (exists rest, Permutation (apps13 U ++ q ++ rest) ws) -> (ok = true -> apps13 U ++ q = ws) ->
  (exists lost, Permutation (map z_frag L ++ q' ++ lost) q /\ (ok = true -> map z_frag L ++ q' = q)) ->
  Bk E os V Ph_Open q' ws ok e.
Proof.
  intros H1 H2 H3 H4 (rest & H5) H6 (lost & H7 & H8). destruct (all_apps L H4) as [A1 A2]. exists (U ++ L). split; [exact H1|].
  rewrite apps13_app, alerts13_app, A1, A2, H3. split; [auto|]. split.
  - exists (lost ++ rest). rewrite <- H5, <- H7, !app_assoc. reflexivity.
  - intros K. rewrite <- (H6 K), <- (H8 K), app_assoc. reflexivity.
Qed.
Definition Vof (os : list Output) (evs : list LocalEvent12) : list LocalEvent12 := cks os ++ filter is_ck evs.

(** ** Client *)
Definition px (st : CState13) : Phase :=
  match st with
  | CT_AwaitApplicationData => Ph_Open | CT_HalfClosedLocal => Ph_Half | CT_Closed => Ph_Done | _ => Ph_Before
  end.
Lemma px_before st : px st = Ph_Before <-> xr st < 10.
Proof. destruct st; cbn; split; intros; try lia; try discriminate; reflexivity. Qed.
Section ClientUser.
Variable E : Env.
Variable os : list Output.

Definition RXU U (a b : Client13) : Prop := UL E os U (xc_eng a) -> UL E os U (xc_eng b).
Lemma RXU_po U : preorder (RXU U).
Proof. split; unfold RXU; auto. Qed.
Lemma RXU_eng U {A} (m : M Eng13 A) : pres (RU E os U) m -> pres (RXU U) (xeng m).
Proof. intros H. apply (pres_zoom _ (RU E os U)); [intros s t K; exact K|exact H]. Qed.
Ltac cmod := apply pres_modify; intros ? K; exact K.
Ltac cx := first [cmod | lazymatch goal with |- pres _ (xeng _) => apply RXU_eng; uop end].

Lemma x_hrr_exts_user U es : pres (RXU U) (hrr_extensions es).
Proof. induction es as [|[t d] es IH]; cbn [hrr_extensions]; presauto (RXU_po U) ltac:(first [exact IH|cx]). Qed.
Lemma x_ee_exts_user U es : pres (RXU U) (ee13_extensions es).
Proof. induction es as [|[t d] es IH]; cbn [ee13_extensions]; presauto (RXU_po U) ltac:(first [exact IH|cx]). Qed.
Lemma x_other_user U st : st <> CT_AwaitApplicationData -> pres (RXU U) (x_step E st).
Proof.
  intros Hs. destruct st; try congruence; cbn [x_step];
    unfold x_send_client_hello, x_await_server_hello, x_hello_retry, x_server_hello,
      x_await_encrypted_extensions, x_await_certificate_request, x_await_certificate,
      x_await_certificate_verify, x_await_finished, x_send_certificate, x_send_certificate_verify, x_send_finished, x_half_closed_local;
    presauto (RXU_po U) ltac:(first [apply x_hrr_exts_user|apply x_ee_exts_user|cx]).
Qed.
Definition SQX (a b : Client13) : Prop := xc_queued a = xc_queued b.
Lemma SQX_po : preorder SQX.
Proof. apply (@preorder_eq Client13 (list bytes) xc_queued). Qed.
Lemma SQX_eng {A} (m : M Eng13 A) : pres SQX (xeng m).
Proof. intros c. unfold xeng, zoom, SQX. destruct (m (xc_eng c)). reflexivity. Qed.
Lemma x_other_queue st : st <> CT_AwaitApplicationData -> pres SQX (x_step E st).
Proof.
  intros Hs.
  assert (P1 : forall es, pres SQX (hrr_extensions es)).
  { induction es as [|[t d] es IH]; cbn [hrr_extensions]; presauto SQX_po ltac:(first [exact IH|apply SQX_eng|apply pres_modify; reflexivity]). }
  assert (P2 : forall es, pres SQX (ee13_extensions es)).
  { induction es as [|[t d] es IH]; cbn [ee13_extensions]; presauto SQX_po ltac:(first [exact IH|apply SQX_eng|apply pres_modify; reflexivity]). }
  destruct st; try congruence; cbn [x_step];
    unfold x_send_client_hello, x_await_server_hello, x_hello_retry, x_server_hello,
      x_await_encrypted_extensions, x_await_certificate_request, x_await_certificate,
      x_await_certificate_verify, x_await_finished, x_send_certificate, x_send_certificate_verify, x_send_finished, x_half_closed_local;
    presauto SQX_po ltac:(first [apply P1|apply P2|apply SQX_eng|apply pres_modify; reflexivity]).
Qed.
Lemma x_app_state : rets (fun st => st = CT_AwaitApplicationData) (x_await_application_data E).
Proof. unfold x_await_application_data. rets ltac:(reflexivity). Qed.
Lemma x_open_next st : xr st < 11 -> rets (fun st' => xr st' < 11) (x_step E st).
Proof.
  intros H. destruct st; try (exfalso; cbn in H; lia); cbn [x_step];
    unfold x_send_client_hello, x_await_server_hello, x_hello_retry, x_server_hello,
      x_await_encrypted_extensions, x_await_certificate_request, x_await_certificate,
      x_await_certificate_verify, x_await_finished, x_send_certificate, x_send_certificate_verify, x_send_finished, x_await_application_data;
    rets ltac:(repeat match goal with |- context [if ?b then _ else _] => destruct b end; reflexivity).
Qed.
Lemma x_late_next st : st <> CT_AwaitApplicationData -> 10 <= xr st ->
  rets (fun st' => st' = st \/ (st = CT_HalfClosedLocal /\ st' = CT_Closed)) (x_step E st).
Proof.
  intros H1 H2. destruct st; try (exfalso; cbn in H2; lia); try congruence; cbn [x_step]; unfold x_half_closed_local;
    rets ltac:(repeat match goal with |- context [if ?b then _ else _] => destruct b end; auto).
Qed.

Lemma x_drain_user ep ds : forall U c, UL E os U (xc_eng c) ->
  wp (iterM (fun d => xeng (create_cipher13 E CT_APP ep false d)) ds) (fun r c' => xc_queued c' = xc_queued c /\
    exists L lost, UL E os (U ++ L) (xc_eng c') /\ Forall (fun z => z_type z = CT_APP) L /\ ds = map z_frag L ++ lost /\
      match r with Ok _ => lost = [] | _ => lossy r = true end) c.
Proof.
  induction ds as [|d ds IH]; intros U c H; cbn [iterM].
  - apply wp_ret. split; [reflexivity|]. exists [], []. rewrite app_nil_r. auto.
  - apply wp_bind, wp_zoom. eapply wp_mono; [apply (UL_user E os U CT_APP ep d (xc_eng c)); [left; reflexivity|exact H]|].
    intros r e' K. destruct r as [u|x|n].
    + destruct K as (z & Z1 & Z2 & K). eapply wp_mono; [apply (IH (U ++ [z]) (set_xc_eng e' c) K)|].
      intros r c2 (Q1 & L & lost & Q2 & Q3 & Q4 & Q5). split; [exact Q1|]. exists (z :: L), lost.
      rewrite <- app_assoc in Q2. split; [exact Q2|]. split; [constructor; assumption|]. split; [|exact Q5].
      cbn [map app]. rewrite Z2, Q4. reflexivity.
    + split; [reflexivity|]. exists [], (d :: ds). rewrite app_nil_r. destruct K as [[-> | ->] K]; auto.
    + split; [reflexivity|]. exists [], (d :: ds). rewrite app_nil_r. auto.
Qed.
Lemma key_update_lossy b e : wp (create_key_update E b) (fun r _ => match r with Ok _ => True | _ => lossy r = true end) e.
Proof.
  unfold create_key_update, flight_begin13, draw13. apply wp_bind, wp_bind. unfold wp at 1. cbn [fst snd]. apply wp_modify, wp_bind, wp_get, wp_bind, wp_modify, wp_bind.
  match goal with |- wp (create_cipher13 _ ?a ?b ?c ?d) _ ?s => apply (wp_mono _ _ _ _ (create_cipher_spec E a b c d s)) end. intros r s' H. cbv zeta in H. destruct r as [u|x|n].
  - apply wp_modify. exact I.
  - destruct H as [[-> | ->] _]; reflexivity.
  - reflexivity.
Qed.
Lemma wp_pair {S A} (m : M S A) (P Q : res A -> S -> Prop) s : wp m P s -> wp m Q s -> wp m (fun r s' => P r s' /\ Q r s') s.
Proof. unfold wp. auto. Qed.
Lemma x_ku_user b U c1 : UL E os U (xc_eng c1) ->
  wp (xeng (create_key_update E b)) (fun r c' => UL E os U (xc_eng c') /\ xc_queued c' = xc_queued c1 /\
    match r with Ok _ => True | _ => lossy r = true end) c1.
Proof.
  intros H1. apply wp_zoom. eapply wp_mono; [apply wp_pair; [apply (key_update_lossy b)|apply (wp_pres (RU E os U)), UL_key_update]|].
  intros r e' [K1 K2]. split; [exact (K2 H1)|]. split; [reflexivity|exact K1].
Qed.
Lemma x_tail_user U (m : M Client13 CState13) c : pres (RXU U) m -> pres SQX m -> UL E os U (xc_eng c) -> xc_queued c = [] ->
  wp m (fun _ c' => UL E os U (xc_eng c') /\ xc_queued c' = []) c.
Proof. intros P1 P2 H1 H2. split; [apply P1, H1|]. rewrite <- H2. symmetry. apply P2. Qed.
Lemma x_app_user U c : UL E os U (xc_eng c) ->
  wp (x_await_application_data E) (fun r c' =>
    exists L, UL E os (U ++ L) (xc_eng c') /\ Forall (fun z => z_type z = CT_APP) L /\
      ((lossy r = true /\ L = [] /\ xc_queued c' = xc_queued c) \/
       (xc_queued c' = [] /\ exists lost, xc_queued c = map z_frag L ++ lost /\ (lost <> [] -> lossy r = true)))) c.
Proof.
  intros H. unfold x_await_application_data. apply wp_bind.
  apply wp_mono with (P := fun r c' => UL E os U (xc_eng c') /\ xc_queued c' = xc_queued c /\ match r with Ok _ => True | _ => False end).
  { apply wp_zoom. unfold take_needs_key_update. apply wp_bind, wp_get, wp_bind, wp_modify, wp_ret. split; [exact H|]. split; [reflexivity|exact I]. }
  intros r c1 (H1 & Q1 & R1). destruct r as [needs|x|n]; [|destruct R1..]. clear H R1.
  apply wp_bind, wp_get, wp_bind.
  apply wp_mono with (P := fun r c' => UL E os U (xc_eng c') /\ xc_queued c' = xc_queued c1 /\ match r with Ok _ => True | _ => lossy r = true end).
  { apply wp_when; intros _; [apply x_ku_user, H1|split; [exact H1|split; [reflexivity|exact I]]]. }
  rewrite <- Q1. clear Q1 c. intros r c2 (H2 & Q2 & R2). rewrite <- Q2. clear Q2 H1 c1. rename c2 into c1.
  destruct r as [u|x|n]; [|exists []; rewrite app_nil_r; split; [exact H2|split; [constructor|left; repeat split; assumption]]..].
  apply wp_bind, wp_get. apply wp_bind, wp_modify, wp_bind.
  eapply wp_mono; [apply (x_drain_user _ (xc_queued c1) U (set_xc_queued [] c1) H2)|].
  intros r c2 (Q3 & L & lost & H3 & F2 & E2 & R3). cbn [xc_queued set_xc_queued] in Q3.
  destruct r as [v|x|n]; [|exists L; split; [exact H3|]; split; [exact F2|]; right; split; [exact Q3|]; exists lost; auto..].
  subst lost. rewrite app_nil_r in E2. rewrite E2. generalize (xc_pend c1). intros pend. clear c1 H2 E2 R2.
  eapply wp_mono; [apply (x_tail_user (U ++ L)); [| |exact H3|exact Q3]|].
  - presauto (RXU_po (U ++ L)) cx.
  - presauto SQX_po ltac:(first [apply SQX_eng|apply pres_modify; reflexivity]).
  - intros r c' [K1 K2]. exists L. split; [exact K1|]. split; [exact F2|]. right. split; [exact K2|]. exists [].
    rewrite app_nil_r. split; [reflexivity|]. congruence.
Qed.
End ClientUser.

Section ClientBooks.
Variables (E : Env) (cfg : Config) (X : N * bytes * bytes -> Prop).
Notation JJ := (JX E cfg X).

Definition BCX os ws ok (c : Client13) : Prop :=
  Bk E os (Vof os (xc_events c)) (px (xc_state c)) (xc_queued c) ws ok (xc_eng c).
Definition QCX (ok : bool) (c : Client13) : Prop := ok = true -> xc_state c = CT_AwaitApplicationData -> xc_queued c = [].
Definition JUX os ws ok (c : Client13) : Prop := JJ os c /\ BCX os ws ok c /\ QCX ok c.

Lemma jx_step' os c r c' : JJ os c -> x_step E (xc_state c) c = (r, c') ->
  match r with Ok st => JJ os (set_xc_state st c') | _ => JJ os c' end.
Proof. intros H1 H2. pose proof (jx_step E cfg X os c r c' H1 H2) as K. destruct r as [st|x|n]; try (destruct K as [K|[]]); exact K. Qed.

(** One step. *)
Lemma x_step_user os ws ok c r c' : JJ os c -> BCX os ws ok c -> x_step E (xc_state c) c = (r, c') ->
  (match r with Ok st => BCX os ws ok (set_xc_state st c') | _ => BCX os ws (ok && negb (lossy r)) c' end) /\
  (ok && negb (lossy r) = true -> xc_state c = CT_AwaitApplicationData -> xc_queued c' = []).
Proof.
  intros J B Hs. pose proof (x_step_state E (xc_state c) c) as Kst. rewrite Hs in Kst. cbn [snd] in Kst. symmetry in Kst.
  destruct (cstate13_eqb (xc_state c) CT_AwaitApplicationData) eqn:Ha.
  - assert (Hst : xc_state c = CT_AwaitApplicationData) by (destruct (xc_state c); try discriminate; reflexivity). clear Ha.
    assert (L10 : 10 <= xr (xc_state c)) by (rewrite Hst; cbn; lia).
    pose proof (kx_late E _ L10 c) as K. rewrite Hs in K. cbn [snd] in K.
    pose proof (kx_ev _ _ (proj1 K)) as KV. clear K.
    pose proof Hs as Hs2. rewrite Hst in Hs. cbn [x_step] in Hs.
    unfold BCX in B |- *. destruct B as (U & B1 & B2 & B3 & B4). rewrite Hst in B2. cbn [px] in B2. destruct B2 as [V1 A1].
    pose proof (x_app_user E os U c B1) as W. unfold wp in W. rewrite Hs in W. cbn [fst snd] in W.
    destruct W as (L & W1 & W2 & W3).
    assert (G : Bk E os (Vof os (xc_events c')) Ph_Open (xc_queued c') ws (ok && negb (lossy r)) (xc_eng c')).
    { eapply Bk_drain; [exact W1| |exact A1|exact W2|exact B3| |].
      - unfold Vof. rewrite KV. exact V1.
      - intros K. apply andb_prop in K. apply B4, K.
      - destruct W3 as [(R1 & -> & R3)|(R1 & lost & R2 & R3)].
        + exists []. rewrite R3, R1, andb_false_r, app_nil_r. split; [reflexivity|discriminate].
        + exists lost. rewrite R1, R2. cbn [app]. split; [reflexivity|]. intros K. destruct lost; [reflexivity|].
          rewrite R3 in K by discriminate. rewrite andb_false_r in K. discriminate. }
    split.
    + destruct r as [st|x|n]; [|rewrite Kst, Hst; exact G..].
      assert (st = CT_AwaitApplicationData).
      { pose proof (x_app_state E c) as R. rewrite Hs in R. exact R. }
      subst st. cbn [lossy negb] in G. rewrite andb_true_r in G. exact G.
    + intros K _. destruct W3 as [(R1 & _)|(R1 & _)]; [rewrite R1, andb_false_r in K; discriminate|exact R1].
  - split; [|intros _ Hst; rewrite Hst in Ha; discriminate].
    assert (Hna : xc_state c <> CT_AwaitApplicationData) by (intros Hst; rewrite Hst in Ha; discriminate). clear Ha.
    pose proof (x_other_queue E _ Hna c) as KQ. rewrite Hs in KQ. cbn [snd] in KQ. unfold SQX in KQ.
    assert (KE : forall U, RU E os U (xc_eng c) (xc_eng c')).
    { intros U. pose proof (x_other_user E os U _ Hna c) as K. rewrite Hs in K. exact K. }
    apply (Bk_eng _ _ _ _ _ _ _ _ _ KE) in B.
    assert (Hok : ok && negb (lossy r) = true -> ok = true) by (intros K; apply andb_prop in K; apply K).
    destruct (N.lt_ge_cases (xr (xc_state c)) 10) as [L10|L10].
    + destruct J as (J1 & J2 & J3). destruct (J1 L10) as [F V]. pose proof (x_step_early E cfg X c L10 F) as W. unfold wp in W. rewrite Hs in W. cbn [fst snd] in W.
      destruct W as [_ W2]. apply (proj2 (px_before _)) in L10. rewrite L10 in B. unfold BCX, Vof in *.
      destruct r as [st|x|n].
      * destruct W2 as (_ & W3 & W4). cbn [xc_state xc_events xc_queued xc_eng set_xc_state]. rewrite <- KQ.
        destruct B as (U & B1 & B2 & B3). destruct B2 as [B2 ->]. exists []. split; [exact B1|]. split; [|exact B3].
        destruct (xr st <? 10) eqn:Hlt.
        -- rewrite W4. assert (Hp : px st = Ph_Before) by (apply px_before; lia). rewrite Hp. auto.
        -- assert (Hp : px st = Ph_Open) by (destruct st; cbn in W3, Hlt |- *; try lia; reflexivity). rewrite Hp.
           destruct W4 as (k & -> & _). split; [|reflexivity]. rewrite app_assoc. destruct (cks os ++ filter is_ck (xc_events c)); discriminate.
      * destruct W2 as [_ W2]. rewrite Kst, L10, W2, <- KQ. eapply Bk_ok; [exact Hok|exact B].
      * destruct W2 as [_ W2]. rewrite Kst, L10, W2, <- KQ. eapply Bk_ok; [exact Hok|exact B].
    + pose proof (kx_late E _ L10 c) as K. rewrite Hs in K. cbn [snd] in K.
      pose proof (kx_ev _ _ (proj1 K)) as KV. clear K. unfold BCX, Vof in *.
      destruct r as [st|x|n]; [|rewrite Kst, KV, <- KQ; eapply Bk_ok; [exact Hok|exact B]..].
      cbn [xc_state xc_events xc_queued xc_eng set_xc_state]. rewrite KV, <- KQ.
      pose proof (x_late_next E (xc_state c) Hna L10 c) as R. rewrite Hs in R. cbn [fst] in R.
      destruct R as [-> |[Hh ->]]; [exact B|]. rewrite Hh in B. cbn [px] in *.
      destruct B as (U & B1 & B2 & B3). exists U. split; [exact B1|]. split; [right; exact B2|exact B3].
Qed.
Lemma x_progress_user os ws n : forall ok c r c', JJ os c -> BCX os ws ok c -> x_progress E n c = (r, c') ->
  JUX os ws (ok && negb (lossy r)) c'.
Proof.
  induction n as [|n IH]; intros ok c r c' J B Hp; cbn [x_progress] in Hp.
  - injection Hp as <- <-. split; [exact J|]. split; [eapply Bk_ok; [|exact B]; intros K; apply andb_prop in K; apply K|].
    intros K. rewrite andb_false_r in K. discriminate.
  - unfold bind, get in Hp. destruct (x_step E (xc_state c) c) as [r1 c1] eqn:Hs.
    pose proof (x_step_state E (xc_state c) c) as Kst. rewrite Hs in Kst. cbn [snd] in Kst. symmetry in Kst.
    pose proof (jx_step' os c r1 c1 J Hs) as J1. destruct (x_step_user os ws ok c r1 c1 J B Hs) as [B1 Q1].
    destruct r1 as [st|x|m].
    + cbn [lossy negb] in Q1. rewrite andb_true_r in Q1. destruct (cstate13_eqb (xc_state c) st) eqn:He.
      * injection Hp as <- <-. assert (st = xc_state c1) as -> by (rewrite Kst; destruct (xc_state c), st; try discriminate; reflexivity).
        assert (Hc : set_xc_state (xc_state c1) c1 = c1) by (destruct c1; reflexivity). rewrite Hc in *.
        cbn [lossy negb]. rewrite andb_true_r. split; [exact J1|]. split; [exact B1|]. intros K1 K2. apply Q1; congruence.
      * unfold modify in Hp. exact (IH ok _ _ _ J1 B1 Hp).
    + injection Hp as <- <-. split; [exact J1|]. split; [exact B1|]. intros K1 K2. apply Q1; [exact K1|congruence].
    + injection Hp as <- <-. split; [exact J1|]. split; [exact B1|]. intros K1 K2. apply Q1; [exact K1|congruence].
Qed.

(** Calls. *)
Lemma jux_weak os ws ok ok' c : (ok' = true -> ok = true) -> JUX os ws ok c -> JUX os ws ok' c.
Proof. intros H (J & B & Q). split; [exact J|]. split; [eapply Bk_ok; [exact H|exact B]|]. intros K. apply Q, H, K. Qed.
Lemma jux_eng {A} (m : M Eng13 A) os ws ok c : pres GT m -> (forall U, pres (RU E os U) m) -> JUX os ws ok c -> JUX os ws ok (snd (xeng m c)).
Proof.
  intros P1 P2 (J & B & Q). split; [apply jx_eng; assumption|]. unfold BCX, QCX in *. unfold xeng, zoom.
  pose proof (fun U => P2 U (xc_eng c)) as K. destruct (m (xc_eng c)) as [r e]. cbn [fst snd] in *.
  split; [eapply Bk_eng; [exact K|exact B]|exact Q].
Qed.
Lemma jux_draw os ws ok c now : JUX os ws ok c -> JUX os ws ok (draw_random13 E (set_xc_now now c)).
Proof.
  intros (J & B & Q). split; [apply jx_start, J|]. unfold draw_random13, BCX, QCX in *. cbn [xc_random set_xc_now]. destruct (xc_random c); [auto|].
  unfold bind. pose proof (fun U => RXU_eng E os U (rand_bytes13 E 32)) as P.
  assert (P0 : forall U, pres (RU E os U) (rand_bytes13 E 32)) by (intros U; uop).
  specialize (fun U => P U (P0 U) (set_xc_now now c)). unfold RXU in P. unfold xeng, zoom in *.
  destruct (rand_bytes13 E 32 (xc_eng (set_xc_now now c))) as [[v|x|n] e'];
    (split; [eapply Bk_eng; [exact P|exact B]|exact Q]).
Qed.
Lemma jux_progress os ws ok c r c' : JUX os ws ok c -> x_progress E 40 c = (r, c') -> JUX os ws (ok && negb (lossy r)) c'.
Proof. intros (J & B & _) H. exact (x_progress_user os ws 40 ok c r c' J B H). Qed.
Lemma jux_packet os ws ok c p r c' : JUX os ws ok c -> client13_handle_packet E p c = (r, c') -> JUX os ws (ok && negb (lossy r)) c'.
Proof.
  intros H Hc. unfold client13_handle_packet, public, bind in Hc.
  pose proof (jux_eng (eng13_parse_packet E p) os ws ok c (gt_parse E p) (fun U => UL_parse E os U p) H) as H1.
  destruct (xeng (eng13_parse_packet E p) c) as [[[]|x|n] c1]; cbn [snd] in H1.
  - unfold x_make_progress in Hc. destruct (x_progress E 40 c1) as [r2 c2] eqn:Hp.
    pose proof (jux_progress _ _ _ _ _ _ H1 Hp) as K. destruct r2 as [[]|x|n]; [|destruct x|]; injection Hc as <- <-; exact K.
  - destruct x; injection Hc as <- <-; (eapply jux_weak; [|exact H1]); intros K; apply andb_prop in K; apply K.
  - injection Hc as <- <-. eapply jux_weak; [|exact H1]. intros K; apply andb_prop in K; apply K.
Qed.
Lemma jux_tick os ws ok c now r c' : JUX os ws ok c -> client13_handle_timeout E now c = (r, c') -> JUX os ws (ok && negb (lossy r)) c'.
Proof.
  intros H Hc. rewrite tick_draw in Hc. unfold bind in Hc.
  pose proof (jux_eng (eng13_handle_timeout E now) os ws ok _ (gt_timeout E now) (fun U => UL_timeout E os U now) (jux_draw os ws ok c now H)) as H1.
  destruct (xeng (eng13_handle_timeout E now) (draw_random13 E (set_xc_now now c))) as [[[]|x|n] c1]; cbn [snd] in H1.
  - unfold x_make_progress, public in Hc. destruct (x_progress E 40 c1) as [r2 c2] eqn:Hp.
    pose proof (jux_progress _ _ _ _ _ _ H1 Hp) as K. destruct r2 as [[]|x|n]; [|destruct x|]; injection Hc as <- <-; exact K.
  - injection Hc as <- <-. eapply jux_weak; [|exact H1]. intros K; apply andb_prop in K; apply K.
  - injection Hc as <- <-. eapply jux_weak; [|exact H1]. intros K; apply andb_prop in K; apply K.
Qed.
Lemma jux_send os ws ok c d r c' : JUX os ws ok c -> client13_send E d c = (r, c') ->
  JUX os (ws ++ match r with Ok _ => [d] | _ => [] end) (ok && negb (lossy r)) c'.
Proof.
  intros (J & B & Q) Hc. assert (J' : JJ os c') by (pose proof (jx_send E cfg X d os c J) as K; rewrite Hc in K; exact K).
  split; [exact J'|]. clear J J'. unfold client13_send, bind, get in Hc. unfold BCX, QCX in *.
  assert (Hq : forall st, xc_state c = st -> px st = Ph_Before -> (Ok tt, set_xc_queued (xc_queued c ++ [d]) c) = (r, c') ->
    Bk E os (Vof os (xc_events c')) (px (xc_state c')) (xc_queued c') (ws ++ match r with Ok _ => [d] | _ => [] end) (ok && negb (lossy r)) (xc_eng c') /\
    (ok && negb (lossy r) = true -> xc_state c' = CT_AwaitApplicationData -> xc_queued c' = [])).
  { intros st Hst Hp [= <- <-]. cbn [xc_state xc_events xc_queued xc_eng set_xc_queued lossy negb]. rewrite andb_true_r. split.
    - destruct B as (U & B1 & B2 & (rest & B3) & B4). exists U. split; [exact B1|]. split; [rewrite Hst, Hp in B2 |- *; exact B2|]. split.
      + exists rest. rewrite <- B3. rewrite <- !app_assoc. apply Permutation_app_head. rewrite (app_assoc (xc_queued c) rest [d]).
        rewrite (Permutation_app_comm (xc_queued c ++ rest) [d]). cbn [app]. symmetry. apply Permutation_middle.
      + intros K. rewrite app_assoc, (B4 K). reflexivity.
    - intros _ K. rewrite Hst in K. rewrite K in Hp. discriminate. }
  destruct (xc_state c) eqn:Hst; try (apply (Hq _ eq_refl eq_refl), Hc); clear Hq.
  - destruct B as (U & B1 & [V1 A1] & (rest & B3) & B4). unfold xeng, zoom in Hc.
    pose proof (UL_user E os U CT_APP (g_epoch (xc_eng c)) d (xc_eng c) (or_introl eq_refl) B1) as W. unfold wp in W.
    destruct (create_cipher13 E CT_APP (g_epoch (xc_eng c)) false d (xc_eng c)) as [r1 e']. injection Hc as <- <-. cbn [fst snd] in W.
    cbn [xc_state xc_events xc_queued xc_eng set_xc_eng]. rewrite Hst. cbn [px]. destruct r1 as [u|x|n].
    + cbn [lossy negb]. rewrite andb_true_r. destruct W as (z & Z1 & Z2 & W). split; [|auto].
      exists (U ++ [z]). assert (Fz : Forall (fun y => z_type y = CT_APP) [z]) by (constructor; [exact Z1|constructor]).
      destruct (all_apps [z] Fz) as [A2 A3]. rewrite apps13_app, alerts13_app, A1, A2, A3. cbn [map]. rewrite Z2.
      split; [exact W|]. split; [auto|]. split.
      * exists rest. rewrite <- B3, <- !app_assoc. apply Permutation_app_head. cbn [app]. rewrite app_assoc. apply Permutation_cons_append.
      * intros K. rewrite <- (B4 K), (Q K eq_refl), !app_nil_r. reflexivity.
    + destruct W as [_ W]. rewrite app_nil_r. split; [|intros K; apply Q; apply andb_prop in K; apply K].
      exists U. split; [exact W|]. split; [auto|]. split; [eauto|]. intros K. apply B4. apply andb_prop in K; apply K.
    + rewrite app_nil_r. split; [|intros K; apply Q; apply andb_prop in K; apply K].
      exists U. split; [exact W|]. split; [auto|]. split; [eauto|]. intros K. apply B4. apply andb_prop in K; apply K.
  - injection Hc as <- <-. cbn [lossy negb]. rewrite app_nil_r, andb_true_r, Hst. auto.
  - injection Hc as <- <-. cbn [lossy negb]. rewrite app_nil_r, andb_true_r, Hst. auto.
Qed.
Lemma jux_close os ws ok c r c' : JUX os ws ok c -> client13_close E c = (r, c') -> JUX os ws (ok && negb (lossy r)) c'.
Proof.
  intros (J & B & Q) Hc. assert (J' : JJ os c') by (pose proof (jx_close E cfg X os c J) as K; rewrite Hc in K; exact K).
  split; [exact J'|]. clear J J'. unfold client13_close in Hc. unfold bind at 1, get at 1 in Hc. unfold BCX, QCX in *.
  assert (Hq : forall st, xc_state c = st -> px st = Ph_Before -> (xeng eng13_abort ;;; modify (set_xc_state CT_Closed)) c = (r, c') ->
    Bk E os (Vof os (xc_events c')) (px (xc_state c')) (xc_queued c') ws (ok && negb (lossy r)) (xc_eng c') /\
    (ok && negb (lossy r) = true -> xc_state c' = CT_AwaitApplicationData -> xc_queued c' = [])).
  { intros st Hst Hp Hk. rewrite Hst, Hp in B. destruct B as (U & B1 & [V1 ->] & B3). pose proof (UL_abort E os _ B1) as W.
    unfold bind, xeng, zoom in Hk. unfold eng13_abort, modify in W, Hk. cbn [snd] in W. injection Hk as <- <-.
    cbn [xc_state xc_events xc_queued xc_eng set_xc_eng set_xc_state lossy negb]. rewrite andb_true_r. split; [|discriminate].
    exists []. split; [exact W|]. split; [left; auto|exact B3]. }
  destruct (xc_state c) eqn:Hst; try (apply (Hq _ eq_refl eq_refl), Hc); clear Hq.
  - destruct B as (U & B1 & [V1 A1] & B3 & B4). unfold bind, xeng, zoom in Hc.
    pose proof (UL_user E os U CT_ALERT (g_epoch (xc_eng c)) [1; 0] (xc_eng c) (or_intror eq_refl) B1) as W. unfold wp in W.
    destruct (create_cipher13 E CT_ALERT (g_epoch (xc_eng c)) false [1; 0] (xc_eng c)) as [r1 e']. cbn [fst snd] in W.
    destruct r1 as [u|x|n].
    + destruct W as (z & Z1 & Z2 & W). pose proof (UL_cancel E os _ e' W) as W2. unfold cancel_flights, modify in W2, Hc. cbn [snd xc_eng set_xc_eng] in W2, Hc.
      injection Hc as <- <-. cbn [xc_state xc_events xc_queued xc_eng set_xc_eng set_xc_state lossy negb]. rewrite andb_true_r. split; [|discriminate].
      exists (U ++ [z]). split; [exact W2|]. rewrite apps13_app, alerts13_app, A1.
      assert (Az : apps13 [z] = [] /\ alerts13 [z] = [[1; 0]]).
      { unfold apps13, alerts13. cbn [filter]. rewrite Z1. cbn. rewrite Z2. auto. }
      destruct Az as [-> ->]. rewrite app_nil_r. cbn [px app]. split; [split; [exact V1|split; [reflexivity|intros K; apply (Q K eq_refl)]]|]. split; [exact B3|exact B4].
    + injection Hc as <- <-. destruct W as [_ W]. cbn [xc_state xc_events xc_queued xc_eng set_xc_eng]. rewrite Hst.
      split; [|intros K; apply Q; apply andb_prop in K; apply K].
      exists U. split; [exact W|]. split; [split; assumption|]. split; [exact B3|]. intros K. apply B4. apply andb_prop in K; apply K.
    + injection Hc as <- <-. cbn [xc_state xc_events xc_queued xc_eng set_xc_eng]. rewrite Hst.
      split; [|intros K; apply Q; apply andb_prop in K; apply K].
      exists U. split; [exact W|]. split; [split; assumption|]. split; [exact B3|]. intros K. apply B4. apply andb_prop in K; apply K.
  - injection Hc as <- <-. cbn [lossy negb]. rewrite andb_true_r, Hst. auto.
  - injection Hc as <- <-. cbn [lossy negb]. rewrite andb_true_r, Hst. auto.
Qed.
Lemma jux_poll os ws ok c cap r c' : JUX os ws ok c -> client13_poll_output cap c = (r, c') -> JUX (os ++ out_of r) ws ok c'.
Proof.
  intros (J & B & Q) Hc. split; [eapply jx_poll; eassumption|]. clear J. unfold client13_poll_output, bind, get in Hc. unfold BCX, QCX, Vof in *.
  destruct (xc_events c) as [|ev l] eqn:He.
  - unfold xeng, zoom in Hc. pose proof (eng_poll_plain cap (xc_now c) (xc_eng c)) as O.
    destruct (eng13_poll_output cap (xc_now c) (xc_eng c)) as [r1 e'] eqn:Hp. injection Hc as <- <-. cbn [fst] in O.
    cbn [xc_state xc_events xc_queued xc_eng set_xc_eng]. rewrite He. split; [|exact Q].
    destruct B as (U & B1 & B2). exists U. split; [eapply UL_poll; eassumption|].
    assert (Hk : cks (os ++ out_of r1) = cks os).
    { rewrite cks_app. destruct r1 as [o|x|n]; cbn [out_of]; [rewrite (plain_cks o O)|..]; apply app_nil_r. }
    rewrite Hk. exact B2.
  - unfold modify in Hc. pose proof (event_no_packet _ _ _ _ _ _ _ Hc) as [_ Hd]. apply event_report in Hc. destruct Hc as (-> & _ & P2).
    cbn [xc_state xc_events xc_queued xc_eng set_xc_events]. split; [|exact Q].
    destruct B as (U & B1 & B2). exists U. split; [apply UL_quiet; assumption|].
    change (filter is_ck (ev :: l)) with (filter is_ck ([ev] ++ l)) in B2. rewrite filter_app, <- P2, app_assoc, <- cks_app in B2. exact B2.
Qed.
Lemma jux_call os ws ok c k r c' : JUX os ws ok c -> client13_call E k c = (r, c') ->
  JUX (os ++ match r with Ok (Some o) => [o] | _ => [] end) (ws ++ accepted k r) (ok && negb (lossy r)) c'.
Proof.
  intros H Hc. destruct k as [p|cap|now|d|]; cbn [client13_call] in Hc; unfold no_output, some_output, bind in Hc.
  - destruct (client13_handle_packet E p c) as [[[]|x|n] c1] eqn:K; injection Hc as <- <-; rewrite !app_nil_r; apply (jux_packet _ _ _ _ _ _ _ H K).
  - destruct (client13_poll_output cap c) as [[o|x|n] c1] eqn:K; injection Hc as <- <-; cbn [accepted]; rewrite (app_nil_r ws);
      (eapply jux_weak; [|exact (jux_poll _ _ _ _ _ _ _ H K)]; intros Q; apply andb_prop in Q; apply Q).
  - destruct (client13_handle_timeout E now c) as [[[]|x|n] c1] eqn:K; injection Hc as <- <-; rewrite !app_nil_r; apply (jux_tick _ _ _ _ _ _ _ H K).
  - destruct (client13_send E d c) as [[[]|x|n] c1] eqn:K; injection Hc as <- <-; rewrite (app_nil_r os); apply (jux_send _ _ _ _ _ _ _ H K).
  - destruct (client13_close E c) as [[[]|x|n] c1] eqn:K; injection Hc as <- <-; rewrite !app_nil_r; apply (jux_close _ _ _ _ _ _ H K).
Qed.
Lemma jux_history c0 h s : JUX [] [] true c0 -> history13 E (XC c0) h s ->
  exists c, s = XC c /\ JUX (outputs h) (writes h) (calm h) c.
Proof.
  intros H0. induction 1 as [|h s k r s' H IH NP C]; [exists c0; auto|]. destruct IH as (c & -> & IH). cbn [end13_call] in C.
  destruct (client13_call E k c) as [r0 c'] eqn:Hc. injection C as <- <-. exists c'. split; [reflexivity|].
  pose proof (jux_call _ _ _ _ _ _ _ IH Hc) as K. rewrite outputs_snoc. unfold writes, calm. rewrite flat_map_app, forallb_app.
  cbn [flat_map forallb fst snd]. rewrite app_nil_r, andb_true_r. exact K.
Qed.
End ClientBooks.

(** ** Server *)
Definition py (st : SState13) : Phase :=
  match st with
  | ST_AwaitApplicationData => Ph_Open | ST_HalfClosedLocal => Ph_Half | ST_Closed => Ph_Done | _ => Ph_Before
  end.
Lemma py_before st : py st = Ph_Before <-> yr st < 10.
Proof. destruct st; cbn; split; intros; try lia; try discriminate; reflexivity. Qed.
Section ServerUser.
Variable E : Env.
Variable os : list Output.

Definition RYU U (a b : Server13) : Prop := UL E os U (xs_eng a) -> UL E os U (xs_eng b).
Lemma RYU_po U : preorder (RYU U).
Proof. split; unfold RYU; auto. Qed.
Lemma RYU_eng U {A} (m : M Eng13 A) : pres (RU E os U) m -> pres (RYU U) (yeng m).
Proof. intros H. apply (pres_zoom _ (RU E os U)); [intros s t K; exact K|exact H]. Qed.
Ltac cmod := apply pres_modify; intros ? K; exact K.
Ltac cx := first [cmod | lazymatch goal with |- pres _ (yeng _) => apply RYU_eng; uop end].

Lemma y_other_user U st : st <> ST_AwaitApplicationData -> pres (RYU U) (y_step E st).
Proof.
  intros Hs.
  assert (P1 : forall a b c, pres (RYU U) (y_select E a b c)).
  { intros. unfold y_select, cookie13, y_retry, send_hello_retry, y_accept_hello. presauto (RYU_po U) cx. }
  destruct st; try congruence; cbn [y_step];
    unfold y_send_server_hello, y_send_encrypted_extensions, y_send_certificate_request, y_send_certificate, y_send_certificate_verify, y_send_finished,
      y_await_certificate, y_await_certificate_verify, y_await_finished, y_half_closed_local, create_server_hello13.
  { unfold y_await_client_hello. apply (pres_bind _ (RYU_po U)); [apply (pres_get _ (RYU_po U))|]. intros s.
    apply (pres_bind _ (RYU_po U)); [apply RYU_eng; destruct (xs_auto s); uop|]. intros o. presauto (RYU_po U) ltac:(first [apply P1|cx]). }
  all: presauto (RYU_po U) ltac:(first [cx
    | lazymatch goal with |- pres _ (yeng (create_handshake13 _ _ _)) => apply RYU_eng, UL_create_hs; presauto (RU_po E os U) ltac:(uop) end]).
Qed.
Definition SQY (a b : Server13) : Prop := xs_queued a = xs_queued b.
Lemma SQY_po : preorder SQY.
Proof. apply (@preorder_eq Server13 (list bytes) xs_queued). Qed.
Lemma SQY_eng {A} (m : M Eng13 A) : pres SQY (yeng m).
Proof. intros c. unfold yeng, zoom, SQY. destruct (m (xs_eng c)). reflexivity. Qed.
Lemma y_other_queue st : st <> ST_AwaitApplicationData -> pres SQY (y_step E st).
Proof.
  intros Hs. destruct st; try congruence; cbn [y_step];
    unfold y_await_client_hello, y_select, cookie13, y_retry, send_hello_retry, y_accept_hello,
      y_send_server_hello, y_send_encrypted_extensions, y_send_certificate_request, y_send_certificate, y_send_certificate_verify, y_send_finished,
      y_await_certificate, y_await_certificate_verify, y_await_finished, y_half_closed_local;
    presauto SQY_po ltac:(first [apply SQY_eng|apply pres_modify; reflexivity]).
Qed.
Lemma y_app_state : rets (fun st => st = ST_AwaitApplicationData) (y_await_application_data E).
Proof. unfold y_await_application_data. rets ltac:(reflexivity). Qed.
Lemma y_open_next st : yr st < 11 -> rets (fun st' => yr st' < 11) (y_step E st).
Proof.
  intros H. destruct st; try (exfalso; cbn in H; lia); cbn [y_step];
    unfold y_await_client_hello, y_select, cookie13, y_retry, send_hello_retry, y_accept_hello,
      y_send_server_hello, y_send_encrypted_extensions, y_send_certificate_request, y_send_certificate, y_send_certificate_verify, y_send_finished,
      y_await_certificate, y_await_certificate_verify, y_await_finished, y_await_application_data;
    rets ltac:(repeat match goal with |- context [if ?b then _ else _] => destruct b end; reflexivity).
Qed.
Lemma y_late_next st : st <> ST_AwaitApplicationData -> 10 <= yr st ->
  rets (fun st' => st' = st \/ (st = ST_HalfClosedLocal /\ st' = ST_Closed)) (y_step E st).
Proof.
  intros H1 H2. destruct st; try (exfalso; cbn in H2; lia); try congruence; cbn [y_step]; unfold y_half_closed_local;
    rets ltac:(repeat match goal with |- context [if ?b then _ else _] => destruct b end; auto).
Qed.

Lemma y_drain_user ep ds : forall U c, UL E os U (xs_eng c) ->
  wp (iterM (fun d => yeng (create_cipher13 E CT_APP ep false d)) ds) (fun r c' => xs_queued c' = xs_queued c /\
    exists L lost, UL E os (U ++ L) (xs_eng c') /\ Forall (fun z => z_type z = CT_APP) L /\ ds = map z_frag L ++ lost /\
      match r with Ok _ => lost = [] | _ => lossy r = true end) c.
Proof.
  induction ds as [|d ds IH]; intros U c H; cbn [iterM].
  - apply wp_ret. split; [reflexivity|]. exists [], []. rewrite app_nil_r. auto.
  - apply wp_bind, wp_zoom. eapply wp_mono; [apply (UL_user E os U CT_APP ep d (xs_eng c)); [left; reflexivity|exact H]|].
    intros r e' K. destruct r as [u|x|n].
    + destruct K as (z & Z1 & Z2 & K). eapply wp_mono; [apply (IH (U ++ [z]) (set_xs_eng e' c) K)|].
      intros r c2 (Q1 & L & lost & Q2 & Q3 & Q4 & Q5). split; [exact Q1|]. exists (z :: L), lost.
      rewrite <- app_assoc in Q2. split; [exact Q2|]. split; [constructor; assumption|]. split; [|exact Q5].
      cbn [map app]. rewrite Z2, Q4. reflexivity.
    + split; [reflexivity|]. exists [], (d :: ds). rewrite app_nil_r. destruct K as [[-> | ->] K]; auto.
    + split; [reflexivity|]. exists [], (d :: ds). rewrite app_nil_r. auto.
Qed.
Lemma y_ku_user b U c1 : UL E os U (xs_eng c1) ->
  wp (yeng (create_key_update E b)) (fun r c' => UL E os U (xs_eng c') /\ xs_queued c' = xs_queued c1 /\
    match r with Ok _ => True | _ => lossy r = true end) c1.
Proof.
  intros H1. apply wp_zoom. eapply wp_mono; [apply wp_pair; [apply (key_update_lossy E b)|apply (wp_pres (RU E os U)), UL_key_update]|].
  intros r e' [K1 K2]. split; [exact (K2 H1)|]. split; [reflexivity|exact K1].
Qed.
Lemma y_tail_user U (m : M Server13 SState13) c : pres (RYU U) m -> pres SQY m -> UL E os U (xs_eng c) -> xs_queued c = [] ->
  wp m (fun _ c' => UL E os U (xs_eng c') /\ xs_queued c' = []) c.
Proof. intros P1 P2 H1 H2. split; [apply P1, H1|]. rewrite <- H2. symmetry. apply P2. Qed.
Lemma y_app_user U c : UL E os U (xs_eng c) ->
  wp (y_await_application_data E) (fun r c' =>
    exists L, UL E os (U ++ L) (xs_eng c') /\ Forall (fun z => z_type z = CT_APP) L /\
      ((lossy r = true /\ L = [] /\ xs_queued c' = xs_queued c) \/
       (xs_queued c' = [] /\ exists lost, xs_queued c = map z_frag L ++ lost /\ (lost <> [] -> lossy r = true)))) c.
Proof.
  intros H. unfold y_await_application_data. apply wp_bind.
  apply wp_mono with (P := fun r c' => UL E os U (xs_eng c') /\ xs_queued c' = xs_queued c /\ match r with Ok _ => True | _ => False end).
  { apply wp_zoom. unfold take_needs_key_update. apply wp_bind, wp_get, wp_bind, wp_modify, wp_ret. split; [exact H|]. split; [reflexivity|exact I]. }
  intros r c1 (H1 & Q1 & R1). destruct r as [needs|x|n]; [|destruct R1..]. clear H R1.
  apply wp_bind, wp_get, wp_bind.
  apply wp_mono with (P := fun r c' => UL E os U (xs_eng c') /\ xs_queued c' = xs_queued c1 /\ match r with Ok _ => True | _ => lossy r = true end).
  { apply wp_when; intros _; [apply y_ku_user, H1|split; [exact H1|split; [reflexivity|exact I]]]. }
  rewrite <- Q1. clear Q1 c. intros r c2 (H2 & Q2 & R2). rewrite <- Q2. clear Q2 H1 c1. rename c2 into c1.
  destruct r as [u|x|n]; [|exists []; rewrite app_nil_r; split; [exact H2|split; [constructor|left; repeat split; assumption]]..].
  apply wp_bind, wp_get. apply wp_bind, wp_modify, wp_bind.
  eapply wp_mono; [apply (y_drain_user _ (xs_queued c1) U (set_xs_queued [] c1) H2)|].
  intros r c2 (Q3 & L & lost & H3 & F2 & E2 & R3). cbn [xs_queued set_xs_queued] in Q3.
  destruct r as [v|x|n]; [|exists L; split; [exact H3|]; split; [exact F2|]; right; split; [exact Q3|]; exists lost; auto..].
  subst lost. rewrite app_nil_r in E2. rewrite E2. generalize (xs_pend c1). intros pend. clear c1 H2 E2 R2.
  eapply wp_mono; [apply (y_tail_user (U ++ L)); [| |exact H3|exact Q3]|].
  - presauto (RYU_po (U ++ L)) cx.
  - presauto SQY_po ltac:(first [apply SQY_eng|apply pres_modify; reflexivity]).
  - intros r c' [K1 K2]. exists L. split; [exact K1|]. split; [exact F2|]. right. split; [exact K2|]. exists [].
    rewrite app_nil_r. split; [reflexivity|]. congruence.
Qed.
End ServerUser.

Section ServerBooks.
Variables (E : Env) (cfg : Config).
Notation JJ := (JY E cfg).

Definition BCY os ws ok (c : Server13) : Prop :=
  Bk E os (Vof os (xs_events c)) (py (xs_state c)) (xs_queued c) ws ok (xs_eng c).
Definition QCY (ok : bool) (c : Server13) : Prop := ok = true -> xs_state c = ST_AwaitApplicationData -> xs_queued c = [].
Definition JUY os ws ok (c : Server13) : Prop := JJ os c /\ BCY os ws ok c /\ QCY ok c.

Lemma jy_step' os c r c' : JJ os c -> y_step E (xs_state c) c = (r, c') ->
  match r with Ok st => JJ os (set_xs_state st c') | _ => JJ os c' end.
Proof. intros H1 H2. pose proof (jy_step E cfg os c r c' H1 H2) as K. destruct r as [st|x|n]; try (destruct K as [K|[]]); exact K. Qed.

(** One step. *)
Lemma y_step_user os ws ok c r c' : JJ os c -> BCY os ws ok c -> y_step E (xs_state c) c = (r, c') ->
  (match r with Ok st => BCY os ws ok (set_xs_state st c') | _ => BCY os ws (ok && negb (lossy r)) c' end) /\
  (ok && negb (lossy r) = true -> xs_state c = ST_AwaitApplicationData -> xs_queued c' = []).
Proof.
  intros J B Hs. pose proof (y_step_state E (xs_state c) c) as Kst. rewrite Hs in Kst. cbn [snd] in Kst. symmetry in Kst.
  destruct (sstate13_eqb (xs_state c) ST_AwaitApplicationData) eqn:Ha.
  - assert (Hst : xs_state c = ST_AwaitApplicationData) by (destruct (xs_state c); try discriminate; reflexivity). clear Ha.
    assert (L10 : 10 <= yr (xs_state c)) by (rewrite Hst; cbn; lia).
    pose proof (ky_late E _ L10 c) as K. rewrite Hs in K. cbn [snd] in K.
    pose proof (ky_ev _ _ (proj1 K)) as KV. clear K.
    pose proof Hs as Hs2. rewrite Hst in Hs. cbn [y_step] in Hs.
    unfold BCY in B |- *. destruct B as (U & B1 & B2 & B3 & B4). rewrite Hst in B2. cbn [py] in B2. destruct B2 as [V1 A1].
    pose proof (y_app_user E os U c B1) as W. unfold wp in W. rewrite Hs in W. cbn [fst snd] in W.
    destruct W as (L & W1 & W2 & W3).
    assert (G : Bk E os (Vof os (xs_events c')) Ph_Open (xs_queued c') ws (ok && negb (lossy r)) (xs_eng c')).
    { eapply Bk_drain; [exact W1| |exact A1|exact W2|exact B3| |].
      - unfold Vof. rewrite KV. exact V1.
      - intros K. apply andb_prop in K. apply B4, K.
      - destruct W3 as [(R1 & -> & R3)|(R1 & lost & R2 & R3)].
        + exists []. rewrite R3, R1, andb_false_r, app_nil_r. split; [reflexivity|discriminate].
        + exists lost. rewrite R1, R2. cbn [app]. split; [reflexivity|]. intros K. destruct lost; [reflexivity|].
          rewrite R3 in K by discriminate. rewrite andb_false_r in K. discriminate. }
    split.
    + destruct r as [st|x|n]; [|rewrite Kst, Hst; exact G..].
      assert (st = ST_AwaitApplicationData).
      { pose proof (y_app_state E c) as R. rewrite Hs in R. exact R. }
      subst st. cbn [lossy negb] in G. rewrite andb_true_r in G. exact G.
    + intros K _. destruct W3 as [(R1 & _)|(R1 & _)]; [rewrite R1, andb_false_r in K; discriminate|exact R1].
  - split; [|intros _ Hst; rewrite Hst in Ha; discriminate].
    assert (Hna : xs_state c <> ST_AwaitApplicationData) by (intros Hst; rewrite Hst in Ha; discriminate). clear Ha.
    pose proof (y_other_queue E _ Hna c) as KQ. rewrite Hs in KQ. cbn [snd] in KQ. unfold SQY in KQ.
    assert (KE : forall U, RU E os U (xs_eng c) (xs_eng c')).
    { intros U. pose proof (y_other_user E os U _ Hna c) as K. rewrite Hs in K. exact K. }
    apply (Bk_eng _ _ _ _ _ _ _ _ _ KE) in B.
    assert (Hok : ok && negb (lossy r) = true -> ok = true) by (intros K; apply andb_prop in K; apply K).
    destruct (N.lt_ge_cases (yr (xs_state c)) 10) as [L10|L10].
    + destruct J as (J1 & J2 & J3). destruct (J1 L10) as [F V]. pose proof (y_step_early E cfg c L10 F) as W. unfold wp in W. rewrite Hs in W. cbn [fst snd] in W.
      destruct W as [_ W2]. apply (proj2 (py_before _)) in L10. rewrite L10 in B. unfold BCY, Vof in *.
      destruct r as [st|x|n].
      * destruct W2 as (_ & W3 & W4). cbn [xs_state xs_events xs_queued xs_eng set_xs_state]. rewrite <- KQ.
        destruct B as (U & B1 & B2 & B3). destruct B2 as [B2 ->]. exists []. split; [exact B1|]. split; [|exact B3].
        destruct (yr st <? 10) eqn:Hlt.
        -- rewrite W4. assert (Hp : py st = Ph_Before) by (apply py_before; lia). rewrite Hp. auto.
        -- assert (Hp : py st = Ph_Open) by (destruct st; cbn in W3, Hlt |- *; try lia; reflexivity). rewrite Hp.
           destruct W4 as (k & -> & _). split; [|reflexivity]. rewrite app_assoc. destruct (cks os ++ filter is_ck (xs_events c)); discriminate.
      * destruct W2 as [_ W2]. rewrite Kst, L10, W2, <- KQ. eapply Bk_ok; [exact Hok|exact B].
      * destruct W2 as [_ W2]. rewrite Kst, L10, W2, <- KQ. eapply Bk_ok; [exact Hok|exact B].
    + pose proof (ky_late E _ L10 c) as K. rewrite Hs in K. cbn [snd] in K.
      pose proof (ky_ev _ _ (proj1 K)) as KV. clear K. unfold BCY, Vof in *.
      destruct r as [st|x|n]; [|rewrite Kst, KV, <- KQ; eapply Bk_ok; [exact Hok|exact B]..].
      cbn [xs_state xs_events xs_queued xs_eng set_xs_state]. rewrite KV, <- KQ.
      pose proof (y_late_next E (xs_state c) Hna L10 c) as R. rewrite Hs in R. cbn [fst] in R.
      destruct R as [-> |[Hh ->]]; [exact B|]. rewrite Hh in B. cbn [py] in *.
      destruct B as (U & B1 & B2 & B3). exists U. split; [exact B1|]. split; [right; exact B2|exact B3].
Qed.
Lemma y_progress_user os ws n : forall ok c r c', JJ os c -> BCY os ws ok c -> y_progress E n c = (r, c') ->
  JUY os ws (ok && negb (lossy r)) c'.
Proof.
  induction n as [|n IH]; intros ok c r c' J B Hp; cbn [y_progress] in Hp.
  - injection Hp as <- <-. split; [exact J|]. split; [eapply Bk_ok; [|exact B]; intros K; apply andb_prop in K; apply K|].
    intros K. rewrite andb_false_r in K. discriminate.
  - unfold bind, get in Hp. destruct (y_step E (xs_state c) c) as [r1 c1] eqn:Hs.
    pose proof (y_step_state E (xs_state c) c) as Kst. rewrite Hs in Kst. cbn [snd] in Kst. symmetry in Kst.
    pose proof (jy_step' os c r1 c1 J Hs) as J1. destruct (y_step_user os ws ok c r1 c1 J B Hs) as [B1 Q1].
    destruct r1 as [st|x|m].
    + cbn [lossy negb] in Q1. rewrite andb_true_r in Q1. destruct (sstate13_eqb (xs_state c) st) eqn:He.
      * injection Hp as <- <-. assert (st = xs_state c1) as -> by (rewrite Kst; destruct (xs_state c), st; try discriminate; reflexivity).
        assert (Hc : set_xs_state (xs_state c1) c1 = c1) by (destruct c1; reflexivity). rewrite Hc in *.
        cbn [lossy negb]. rewrite andb_true_r. split; [exact J1|]. split; [exact B1|]. intros K1 K2. apply Q1; congruence.
      * unfold modify in Hp. exact (IH ok _ _ _ J1 B1 Hp).
    + injection Hp as <- <-. split; [exact J1|]. split; [exact B1|]. intros K1 K2. apply Q1; [exact K1|congruence].
    + injection Hp as <- <-. split; [exact J1|]. split; [exact B1|]. intros K1 K2. apply Q1; [exact K1|congruence].
Qed.

(** Calls. *)
Lemma juy_weak os ws ok ok' c : (ok' = true -> ok = true) -> JUY os ws ok c -> JUY os ws ok' c.
Proof. intros H (J & B & Q). split; [exact J|]. split; [eapply Bk_ok; [exact H|exact B]|]. intros K. apply Q, H, K. Qed.
Lemma juy_eng {A} (m : M Eng13 A) os ws ok c : pres GT m -> (forall U, pres (RU E os U) m) -> JUY os ws ok c -> JUY os ws ok (snd (yeng m c)).
Proof.
  intros P1 P2 (J & B & Q). split; [apply jy_eng; assumption|]. unfold BCY, QCY in *. unfold yeng, zoom.
  pose proof (fun U => P2 U (xs_eng c)) as K. destruct (m (xs_eng c)) as [r e]. cbn [fst snd] in *.
  split; [eapply Bk_eng; [exact K|exact B]|exact Q].
Qed.
Lemma juy_draw os ws ok c now : JUY os ws ok c -> JUY os ws ok (draw_random13s E (set_xs_now now c)).
Proof.
  intros (J & B & Q). split; [apply jy_start, J|]. unfold draw_random13s, BCY, QCY in *. cbn [xs_random set_xs_now]. destruct (xs_random c); [auto|].
  unfold bind. pose proof (fun U => RYU_eng E os U (rand_bytes13 E 32)) as P.
  assert (P0 : forall U, pres (RU E os U) (rand_bytes13 E 32)) by (intros U; uop).
  specialize (fun U => P U (P0 U) (set_xs_now now c)). unfold RYU in P. unfold yeng, zoom in *.
  destruct (rand_bytes13 E 32 (xs_eng (set_xs_now now c))) as [[v|x|n] e'];
    (split; [eapply Bk_eng; [exact P|exact B]|exact Q]).
Qed.
Lemma juy_progress os ws ok c r c' : JUY os ws ok c -> y_progress E 40 c = (r, c') -> JUY os ws (ok && negb (lossy r)) c'.
Proof. intros (J & B & _) H. exact (y_progress_user os ws 40 ok c r c' J B H). Qed.
Lemma juy_auto os ws ok v c : JUY os ws ok c -> JUY os ws ok (set_xs_auto v c).
Proof.
  intros (J & B & Q). split; [|split; [exact B|exact Q]].
  eapply jy_keep; [| | |exact J]; [|reflexivity|reflexivity]; split; [split; auto; repeat split; apply starts_with_refl|reflexivity].
Qed.
Lemma juy_hellos os ws ok v c : JUY os ws ok c -> JUY os ws ok (set_xs_hellos v c).
Proof.
  intros (J & B & Q). split; [|split; [exact B|exact Q]].
  eapply jy_keep; [| | |exact J]; [|reflexivity|reflexivity]; split; [split; auto; repeat split; apply starts_with_refl|reflexivity].
Qed.
Lemma juy_process os ws ok c p r c' : JUY os ws ok c -> public (y_process E p) c = (r, c') -> JUY os ws (ok && negb (lossy r)) c'.
Proof.
  intros H Hc. unfold y_process, public, bind in Hc.
  pose proof (juy_eng (eng13_parse_packet E p) os ws ok c (gt_parse E p) (fun U => UL_parse E os U p) H) as H1.
  destruct (yeng (eng13_parse_packet E p) c) as [[[]|x|n] c1]; cbn [snd] in H1.
  - unfold y_make_progress in Hc. destruct (y_progress E 40 c1) as [r2 c2] eqn:Hp.
    pose proof (juy_progress _ _ _ _ _ _ H1 Hp) as K. destruct r2 as [[]|x|n]; [|destruct x; injection Hc as <- <-; exact K|injection Hc as <- <-; exact K].
    unfold get, when, modify in Hc. destruct (_ && _) in Hc; injection Hc as <- <-; [apply juy_auto, juy_hellos, K|exact K].
  - destruct x; injection Hc as <- <-; (eapply juy_weak; [|exact H1]); intros K; apply andb_prop in K; apply K.
  - injection Hc as <- <-. eapply juy_weak; [|exact H1]. intros K; apply andb_prop in K; apply K.
Qed.
Lemma juy_packet os ws ok c p r c' : JUY os ws ok c -> server13_handle_packet E p c = (r, c') -> JUY os ws (ok && negb (lossy r)) c'.
Proof.
  intros H Hc. unfold server13_handle_packet, bind, get, modify in Hc. destruct (xs_auto c && _).
  - destruct (MAX_RETAINED <=? len (xs_hellos c)).
    + injection Hc as <- <-. cbn [lossy negb]. rewrite andb_true_r. exact H.
    + eapply juy_process; [|exact Hc]. apply juy_hellos, H.
  - eapply juy_process; [exact H|exact Hc].
Qed.
Lemma juy_tick os ws ok c now r c' : JUY os ws ok c -> server13_handle_timeout E now c = (r, c') -> JUY os ws (ok && negb (lossy r)) c'.
Proof.
  intros H Hc. rewrite tick_draws in Hc. unfold bind in Hc.
  pose proof (juy_eng (eng13_handle_timeout E now) os ws ok _ (gt_timeout E now) (fun U => UL_timeout E os U now) (juy_draw os ws ok c now H)) as H1.
  destruct (yeng (eng13_handle_timeout E now) (draw_random13s E (set_xs_now now c))) as [[[]|x|n] c1]; cbn [snd] in H1.
  - unfold y_make_progress, public in Hc. destruct (y_progress E 40 c1) as [r2 c2] eqn:Hp.
    pose proof (juy_progress _ _ _ _ _ _ H1 Hp) as K. destruct r2 as [[]|x|n]; [|destruct x|]; injection Hc as <- <-; exact K.
  - injection Hc as <- <-. eapply juy_weak; [|exact H1]. intros K; apply andb_prop in K; apply K.
  - injection Hc as <- <-. eapply juy_weak; [|exact H1]. intros K; apply andb_prop in K; apply K.
Qed.
Lemma juy_send os ws ok c d r c' : JUY os ws ok c -> server13_send E d c = (r, c') ->
  JUY os (ws ++ match r with Ok _ => [d] | _ => [] end) (ok && negb (lossy r)) c'.
Proof.
  intros (J & B & Q) Hc. assert (J' : JJ os c') by (pose proof (jy_send E cfg d os c J) as K; rewrite Hc in K; exact K).
  split; [exact J'|]. clear J J'. unfold server13_send, bind, get in Hc. unfold BCY, QCY in *.
  assert (Hq : forall st, xs_state c = st -> py st = Ph_Before -> (Ok tt, set_xs_queued (xs_queued c ++ [d]) c) = (r, c') ->
    Bk E os (Vof os (xs_events c')) (py (xs_state c')) (xs_queued c') (ws ++ match r with Ok _ => [d] | _ => [] end) (ok && negb (lossy r)) (xs_eng c') /\
    (ok && negb (lossy r) = true -> xs_state c' = ST_AwaitApplicationData -> xs_queued c' = [])).
  { intros st Hst Hp [= <- <-]. cbn [xs_state xs_events xs_queued xs_eng set_xs_queued lossy negb]. rewrite andb_true_r. split.
    - destruct B as (U & B1 & B2 & (rest & B3) & B4). exists U. split; [exact B1|]. split; [rewrite Hst, Hp in B2 |- *; exact B2|]. split.
      + exists rest. rewrite <- B3. rewrite <- !app_assoc. apply Permutation_app_head. rewrite (app_assoc (xs_queued c) rest [d]).
        rewrite (Permutation_app_comm (xs_queued c ++ rest) [d]). cbn [app]. symmetry. apply Permutation_middle.
      + intros K. rewrite app_assoc, (B4 K). reflexivity.
    - intros _ K. rewrite Hst in K. rewrite K in Hp. discriminate. }
  destruct (xs_state c) eqn:Hst; try (apply (Hq _ eq_refl eq_refl), Hc); clear Hq.
  - destruct B as (U & B1 & [V1 A1] & (rest & B3) & B4). unfold yeng, zoom in Hc.
    pose proof (UL_user E os U CT_APP (g_epoch (xs_eng c)) d (xs_eng c) (or_introl eq_refl) B1) as W. unfold wp in W.
    destruct (create_cipher13 E CT_APP (g_epoch (xs_eng c)) false d (xs_eng c)) as [r1 e']. injection Hc as <- <-. cbn [fst snd] in W.
    cbn [xs_state xs_events xs_queued xs_eng set_xs_eng]. rewrite Hst. cbn [py]. destruct r1 as [u|x|n].
    + cbn [lossy negb]. rewrite andb_true_r. destruct W as (z & Z1 & Z2 & W). split; [|auto].
      exists (U ++ [z]). assert (Fz : Forall (fun y => z_type y = CT_APP) [z]) by (constructor; [exact Z1|constructor]).
      destruct (all_apps [z] Fz) as [A2 A3]. rewrite apps13_app, alerts13_app, A1, A2, A3. cbn [map]. rewrite Z2.
      split; [exact W|]. split; [auto|]. split.
      * exists rest. rewrite <- B3, <- !app_assoc. apply Permutation_app_head. cbn [app]. rewrite app_assoc. apply Permutation_cons_append.
      * intros K. rewrite <- (B4 K), (Q K eq_refl), !app_nil_r. reflexivity.
    + destruct W as [_ W]. rewrite app_nil_r. split; [|intros K; apply Q; apply andb_prop in K; apply K].
      exists U. split; [exact W|]. split; [auto|]. split; [eauto|]. intros K. apply B4. apply andb_prop in K; apply K.
    + rewrite app_nil_r. split; [|intros K; apply Q; apply andb_prop in K; apply K].
      exists U. split; [exact W|]. split; [auto|]. split; [eauto|]. intros K. apply B4. apply andb_prop in K; apply K.
  - injection Hc as <- <-. cbn [lossy negb]. rewrite app_nil_r, andb_true_r, Hst. auto.
  - injection Hc as <- <-. cbn [lossy negb]. rewrite app_nil_r, andb_true_r, Hst. auto.
Qed.
Lemma juy_close os ws ok c r c' : JUY os ws ok c -> server13_close E c = (r, c') -> JUY os ws (ok && negb (lossy r)) c'.
Proof.
  intros (J & B & Q) Hc. assert (J' : JJ os c') by (pose proof (jy_close E cfg os c J) as K; rewrite Hc in K; exact K).
  split; [exact J'|]. clear J J'. unfold server13_close in Hc. unfold bind at 1, get at 1 in Hc. unfold BCY, QCY in *.
  assert (Hq : forall st, xs_state c = st -> py st = Ph_Before -> (yeng eng13_abort ;;; modify (set_xs_state ST_Closed)) c = (r, c') ->
    Bk E os (Vof os (xs_events c')) (py (xs_state c')) (xs_queued c') ws (ok && negb (lossy r)) (xs_eng c') /\
    (ok && negb (lossy r) = true -> xs_state c' = ST_AwaitApplicationData -> xs_queued c' = [])).
  { intros st Hst Hp Hk. rewrite Hst, Hp in B. destruct B as (U & B1 & [V1 ->] & B3). pose proof (UL_abort E os _ B1) as W.
    unfold bind, yeng, zoom in Hk. unfold eng13_abort, modify in W, Hk. cbn [snd] in W. injection Hk as <- <-.
    cbn [xs_state xs_events xs_queued xs_eng set_xs_eng set_xs_state lossy negb]. rewrite andb_true_r. split; [|discriminate].
    exists []. split; [exact W|]. split; [left; auto|exact B3]. }
  destruct (xs_state c) eqn:Hst; try (apply (Hq _ eq_refl eq_refl), Hc); clear Hq.
  - destruct B as (U & B1 & [V1 A1] & B3 & B4). unfold bind, yeng, zoom in Hc.
    pose proof (UL_user E os U CT_ALERT (g_epoch (xs_eng c)) [1; 0] (xs_eng c) (or_intror eq_refl) B1) as W. unfold wp in W.
    destruct (create_cipher13 E CT_ALERT (g_epoch (xs_eng c)) false [1; 0] (xs_eng c)) as [r1 e']. cbn [fst snd] in W.
    destruct r1 as [u|x|n].
    + destruct W as (z & Z1 & Z2 & W). pose proof (UL_cancel E os _ e' W) as W2. unfold cancel_flights, modify in W2, Hc. cbn [snd xs_eng set_xs_eng] in W2, Hc.
      injection Hc as <- <-. cbn [xs_state xs_events xs_queued xs_eng set_xs_eng set_xs_state lossy negb]. rewrite andb_true_r. split; [|discriminate].
      exists (U ++ [z]). split; [exact W2|]. rewrite apps13_app, alerts13_app, A1.
      assert (Az : apps13 [z] = [] /\ alerts13 [z] = [[1; 0]]).
      { unfold apps13, alerts13. cbn [filter]. rewrite Z1. cbn. rewrite Z2. auto. }
      destruct Az as [-> ->]. rewrite app_nil_r. cbn [py app]. split; [split; [exact V1|split; [reflexivity|intros K; apply (Q K eq_refl)]]|]. split; [exact B3|exact B4].
    + injection Hc as <- <-. destruct W as [_ W]. cbn [xs_state xs_events xs_queued xs_eng set_xs_eng]. rewrite Hst.
      split; [|intros K; apply Q; apply andb_prop in K; apply K].
      exists U. split; [exact W|]. split; [split; assumption|]. split; [exact B3|]. intros K. apply B4. apply andb_prop in K; apply K.
    + injection Hc as <- <-. cbn [xs_state xs_events xs_queued xs_eng set_xs_eng]. rewrite Hst.
      split; [|intros K; apply Q; apply andb_prop in K; apply K].
      exists U. split; [exact W|]. split; [split; assumption|]. split; [exact B3|]. intros K. apply B4. apply andb_prop in K; apply K.
  - injection Hc as <- <-. cbn [lossy negb]. rewrite andb_true_r, Hst. auto.
  - injection Hc as <- <-. cbn [lossy negb]. rewrite andb_true_r, Hst. auto.
Qed.
Lemma juy_poll os ws ok c cap r c' : JUY os ws ok c -> server13_poll_output cap c = (r, c') -> JUY (os ++ out_of r) ws ok c'.
Proof.
  intros (J & B & Q) Hc. split; [eapply jy_poll; eassumption|]. clear J. unfold server13_poll_output, bind, get in Hc. unfold BCY, QCY, Vof in *.
  destruct (xs_events c) as [|ev l] eqn:He.
  - unfold yeng, zoom in Hc. pose proof (eng_poll_plain cap (xs_now c) (xs_eng c)) as O.
    destruct (eng13_poll_output cap (xs_now c) (xs_eng c)) as [r1 e'] eqn:Hp. injection Hc as <- <-. cbn [fst] in O.
    cbn [xs_state xs_events xs_queued xs_eng set_xs_eng]. rewrite He. split; [|exact Q].
    destruct B as (U & B1 & B2). exists U. split; [eapply UL_poll; eassumption|].
    assert (Hk : cks (os ++ out_of r1) = cks os).
    { rewrite cks_app. destruct r1 as [o|x|n]; cbn [out_of]; [rewrite (plain_cks o O)|..]; apply app_nil_r. }
    rewrite Hk. exact B2.
  - unfold modify in Hc. pose proof (event_no_packet _ _ _ _ _ _ _ Hc) as [_ Hd]. apply event_report in Hc. destruct Hc as (-> & _ & P2).
    cbn [xs_state xs_events xs_queued xs_eng set_xs_events]. split; [|exact Q].
    destruct B as (U & B1 & B2). exists U. split; [apply UL_quiet; assumption|].
    change (filter is_ck (ev :: l)) with (filter is_ck ([ev] ++ l)) in B2. rewrite filter_app, <- P2, app_assoc, <- cks_app in B2. exact B2.
Qed.
Lemma juy_call os ws ok c k r c' : JUY os ws ok c -> server13_call E k c = (r, c') ->
  JUY (os ++ match r with Ok (Some o) => [o] | _ => [] end) (ws ++ accepted k r) (ok && negb (lossy r)) c'.
Proof.
  intros H Hc. destruct k as [p|cap|now|d|]; cbn [server13_call] in Hc; unfold no_output, some_output, bind in Hc.
  - destruct (server13_handle_packet E p c) as [[[]|x|n] c1] eqn:K; injection Hc as <- <-; rewrite !app_nil_r; apply (juy_packet _ _ _ _ _ _ _ H K).
  - destruct (server13_poll_output cap c) as [[o|x|n] c1] eqn:K; injection Hc as <- <-; cbn [accepted]; rewrite (app_nil_r ws);
      (eapply juy_weak; [|exact (juy_poll _ _ _ _ _ _ _ H K)]; intros Q; apply andb_prop in Q; apply Q).
  - destruct (server13_handle_timeout E now c) as [[[]|x|n] c1] eqn:K; injection Hc as <- <-; rewrite !app_nil_r; apply (juy_tick _ _ _ _ _ _ _ H K).
  - destruct (server13_send E d c) as [[[]|x|n] c1] eqn:K; injection Hc as <- <-; rewrite (app_nil_r os); apply (juy_send _ _ _ _ _ _ _ H K).
  - destruct (server13_close E c) as [[[]|x|n] c1] eqn:K; injection Hc as <- <-; rewrite !app_nil_r; apply (juy_close _ _ _ _ _ _ H K).
Qed.
Lemma juy_history c0 h s : JUY [] [] true c0 -> history13 E (XS c0) h s ->
  exists c, s = XS c /\ JUY (outputs h) (writes h) (calm h) c.
Proof.
  intros H0. induction 1 as [|h s k r s' H IH NP C]; [exists c0; auto|]. destruct IH as (c & -> & IH). cbn [end13_call] in C.
  destruct (server13_call E k c) as [r0 c'] eqn:Hc. injection C as <- <-. exists c'. split; [reflexivity|].
  pose proof (juy_call _ _ _ _ _ _ _ IH Hc) as K. rewrite outputs_snoc. unfold writes, calm. rewrite flat_map_app, forallb_app.
  cbn [flat_map forallb fst snd]. rewrite app_nil_r, andb_true_r. exact K.
Qed.
End ServerBooks.
