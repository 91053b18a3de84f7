(** How the calls on a DTLS 1.2 endpoint change its queue of local events:
    certificates before completion; at completion [Connected] and the keying
    material, once; nothing afterwards. *)
From Coq Require Import String.
From Verif Require Import Prelude PreludeFacts CodecProofs Types Codec Codec12 Record12 Env Config Prf Context12
  Monad MonadFacts Timer Window Engine12 Client12 Server12 Engine12Frame History12 History12Facts
  EndFrame12 View12 Evidence12 ClientInv12 ClientStep12 ServerInv12 ServerStep12 Poll12Proofs.
Close Scope string_scope.

Definition end_release (s : End12) : bool := en_release (end_eng s).
Definition end_srtp (s : End12) : option N :=
  match s with Cl c => cl_srtp c | Sv s => sv_srtp s end.

(** What stays fixed once the handshake completed. *)
Record done_same (a b : End12) : Prop := {
  d_release : end_release b = end_release a;
  d_srtp : end_srtp b = end_srtp a;
  d_certs : end_certs b = end_certs a;
  d_cfg : en_cfg (end_eng b) = en_cfg (end_eng a);
  d_suite : en_suite (end_eng b) = en_suite (end_eng a);
  d_crypto : en_crypto (end_eng b) = en_crypto (end_eng a);
  d_transcript : en_transcript (end_eng b) = en_transcript (end_eng a) }.
Lemma done_refl a : done_same a a.
Proof. constructor; reflexivity. Qed.
Lemma done_trans a b c : done_same a b -> done_same b c -> done_same a c.
Proof. intros [] []. constructor; congruence. Qed.

Section Ev.
Variable E : Env.

Definition keying_ok (s : End12) (ev : LocalEvent12) : Prop :=
  exists km p cs, ev = LE_Keying km p /\ end_srtp s = Some p /\ en_suite (end_eng s) = Some cs /\
    extract_srtp12 E p (suite12_hash cs) (en_crypto (end_eng s)) = Some km.

(** At most one event, with the keying material of this state. *)
Definition klist (s : End12) (l : list LocalEvent12) : Prop :=
  (List.length l <= 1)%nat /\ Forall (keying_ok s) l.
Lemma klist_nil s : klist s [].
Proof. split; [cbn; lia|constructor]. Qed.
Lemma klist_one s ev : keying_ok s ev -> klist s [ev].
Proof. intros H. split; [cbn; lia|constructor; [exact H|constructor]]. Qed.

(** [l] was appended to the events. *)
Definition appended (a b : End12) (l : list LocalEvent12) : Prop :=
  (end_release a = true -> l = [] /\ done_same a b) /\
  (end_release a = false ->
    (end_release b = false /\ Forall (eq LE_PeerCert) l) \/
    (end_release b = true /\ exists pc kl, l = pc ++ LE_Connected :: kl /\
       Forall (eq LE_PeerCert) pc /\ klist b kl)).
Definition EV (a b : End12) : Prop :=
  exists l, end_events b = end_events a ++ l /\ appended a b l.

Lemma EV_refl a : EV a a.
Proof.
  exists []. rewrite app_nil_r. split; [reflexivity|]. split; [intros _; split; [reflexivity|apply done_refl]|].
  intros H. left. auto.
Qed.
Lemma EV_trans a b c : EV a b -> EV b c -> EV a c.
Proof.
  intros (l1 & H1 & A1 & A2) (l2 & H2 & B1 & B2). exists (l1 ++ l2).
  split; [rewrite H2, H1, app_assoc; reflexivity|]. split.
  - intros H. destruct (A1 H) as [-> D]. rewrite <- (d_release _ _ D) in H. destruct (B1 H) as [-> D'].
    split; [reflexivity|eapply done_trans; eassumption].
  - intros H. destruct (A2 H) as [[R F]|(R & pc & kl & -> & F1 & F2)].
    + destruct (B2 R) as [[R' F']|(R' & pc & kl & -> & F1 & F2)].
      * left. split; [exact R'|]. apply Forall_app. auto.
      * right. split; [exact R'|]. exists (l1 ++ pc), kl. split; [rewrite <- app_assoc; reflexivity|].
        split; [apply Forall_app; auto|exact F2].
    + right. destruct (B1 R) as [-> D]. rewrite (d_release _ _ D). split; [exact R|]. exists pc, kl.
      rewrite app_nil_r. split; [reflexivity|]. split; [exact F1|]. split; [apply F2|]. eapply Forall_impl; [|apply F2].
      intros ev (km & p & cs & -> & K1 & K2 & K3). exists km, p, cs. split; [reflexivity|].
      rewrite (d_srtp _ _ D), (d_suite _ _ D), (d_crypto _ _ D). auto.
Qed.

(** Nothing of interest changed. *)
Lemma EV_same a b : end_events b = end_events a -> done_same a b -> EV a b.
Proof.
  intros H D. exists []. rewrite app_nil_r. split; [exact H|]. split; [auto|].
  intros R. left. rewrite (d_release _ _ D). auto.
Qed.

(** ** Client *)

(** The state a step leads to. *)
Lemma wp_any {S A B} (m : M S B) (k : B -> M S A) (P : A -> Prop) s :
  (forall b s', wp (k b) (fun r _ => match r with Ok a => P a | _ => True end) s') ->
  wp (bind m k) (fun r _ => match r with Ok a => P a | _ => True end) s.
Proof. intros H. apply wp_bind, wp_intro. intros [b|x|x] s' _; auto. Qed.
Ltac res_only := repeat (cbv beta; lazymatch goal with
  | |- wp (bind _ _) _ _ => apply wp_any; intros
  | |- wp (ret _) _ _ => apply wp_ret
  | |- wp (fail _) _ _ => exact I
  | |- wp (panic _) _ _ => exact I
  | |- wp (match ?x with _ => _ end) _ _ => destruct x
  | |- wp (let '(_, _) := ?x in _) _ _ => destruct x
  end).

Lemma c_step_low st : c_rank st < 14 -> forall c,
  wp (c_step E st) (fun r _ => match r with Ok st' => c_rank st' < 15 | _ => True end) c.
Proof.
  intros H c. destruct st; cbn [c_rank] in H; try lia; unfold_c_step; cbv zeta; res_only;
    try (cbn [c_rank]; lia);
    repeat match goal with |- context [if ?b then _ else _] => destruct b end; cbn [c_rank]; lia.
Qed.

Definition pc_only (a b : End12) : Prop :=
  exists l, end_events b = end_events a ++ l /\ Forall (eq LE_PeerCert) l.
Lemma pc_only_po : preorder pc_only.
Proof.
  split.
  - intro a. exists []. rewrite app_nil_r. auto.
  - intros a b c (l & H1 & H2) (l' & H3 & H4). exists (l ++ l'). rewrite H3, H1, app_assoc.
    split; [reflexivity|]. apply Forall_app. auto.
Qed.
Lemma pc_same a b : end_events b = end_events a -> pc_only a b.
Proof. intros H. exists []. rewrite app_nil_r. auto. Qed.
Lemma pc_one a b : end_events b = end_events a ++ [LE_PeerCert] -> pc_only a b.
Proof. intros H. exists [LE_PeerCert]. auto. Qed.

Lemma c_step_pc st : c_rank st <> 14 -> pres (fun a b => pc_only (Cl a) (Cl b)) (c_step E st).
Proof.
  intros Hst.
  assert (PO : preorder (fun a b => pc_only (Cl a) (Cl b))).
  { split; intros; [apply pc_only_po|eapply pc_only_po; eassumption]. }
  assert (Hz : forall A (m : M Eng12 A), pres (fun a b => pc_only (Cl a) (Cl b)) (ceng m)).
  { intros A m c. unfold ceng, zoom. destruct (m (cl_eng c)). apply pc_same. reflexivity. }
  assert (Hx : forall es b, pres (fun a b => pc_only (Cl a) (Cl b)) (sh12_extensions b es)).
  { induction es as [|[t d] es IH]; intro b; cbn [sh12_extensions];
      presauto PO ltac:(first [apply IH | apply pres_modify; intro; apply pc_same; reflexivity]). }
  destruct st; cbn [c_rank] in Hst; try lia; unfold_c_step;
    presauto PO ltac:(first [apply Hz | apply Hx | apply pres_iterM; [exact PO|intro; apply Hz]
      | apply pres_modify; intro; first [apply pc_same; reflexivity|apply pc_one; reflexivity]]).
Qed.

Lemma inv_low_release st c : c_rank st < 15 -> inv_c E st c -> en_release (cl_eng c) = false.
Proof. intros H [[T _] _]. destruct st; cbn in H; try lia; apply T. Qed.

Definition ev_post (c : Client12) (_ : res CState12) (c' : Client12) : Prop := EV (Cl c) (Cl c').

Lemma await_finished_ev c : inv_c E CS_AwaitFinished c -> wp (c_await_finished E) (ev_post c) c.
Proof.
  intros I. assert (R : en_release (cl_eng c) = false) by (eapply inv_low_release; [|exact I]; reflexivity).
  unfold c_await_finished, ceng, ev_post.
  assert (Same : forall c', cl_events c' = cl_events c -> en_release (cl_eng c') = false -> EV (Cl c) (Cl c')).
  { intros c' H1 H2. exists []. rewrite app_nil_r. split; [exact H1|]. split; unfold end_release; cbn [end_eng]; [congruence|auto]. }
  wps. apply gvd_spec; [intros; apply Same; auto|].
  intros expected cs ms Hcs Hms Hlen Hvd. ecbn. wps. ecbn.
  apply v_next_handshake; [wps; apply Same; auto|intros x e1 HV1; apply Same; vrw; auto..|].
  intros m e1 rest _ _ _ _ HV1. destruct (m_body m); try (wps; apply Same; vrw; auto).
  destruct (negb (beqb _ _)); [wps; apply Same; vrw; auto|].
  wps. apply v_flight_stop. intros e2 HV2. ecbn_in HV2.
  wpstep. wpstep. wpstep. wpstep. wpstep. ecbn.
  assert (K : forall c2 kl (Q := fun (_ : res CState12) c' => EV (Cl c) (Cl c')),
    cl_events c2 = cl_events c ++ LE_Connected :: kl ->
    klist (Cl c2) kl ->
    wp (zoom cl_eng set_cl_eng release_application_data;;; ret CS_AwaitApplicationData) Q c2).
  { intros c2 kl Q H1 H2. unfold Q. wps. ecbn. apply v_release. intros e3 HV3. wps.
    exists (LE_Connected :: kl). split; [exact H1|]. split; unfold end_release; cbn [end_eng]; [congruence|].
    intros _. right. split; [vrw; reflexivity|]. exists [], kl. split; [reflexivity|]. split; [constructor|].
    split; [apply H2|]. eapply Forall_impl; [|apply H2]. intros ev (km & p & cs' & -> & K1 & K2 & K3). exists km, p, cs'.
    cbn [end_srtp end_eng] in *. vrw. auto. }
  destruct (cl_srtp c) as [p|] eqn:Hsrtp; [|wps; eapply K; [ecbn; reflexivity|apply klist_nil]].
  assert (Hcs2 : en_suite e2 = Some cs) by (vrw; exact Hcs). rewrite Hcs2.
  destruct (extract_srtp12 _ _ _ _) as [km|] eqn:Hx; wpstep; wpstep.
  - eapply (K _ [LE_Keying km p]); [ecbn; rewrite <- app_assoc; reflexivity|].
    apply klist_one. exists km, p, cs. cbn [end_srtp end_eng]. ecbn. auto.
  - eapply K; [ecbn; reflexivity|apply klist_nil].
Qed.

Lemma done_Vsame c e : Vsame (cl_eng c) e -> done_same (Cl c) (Cl (set_cl_eng e c)).
Proof. intros []. constructor; unfold end_release; cbn [end_eng end_srtp end_certs]; ecbn; auto. Qed.
Lemma EV_Vsame c e : Vsame (cl_eng c) e -> EV (Cl c) (Cl (set_cl_eng e c)).
Proof. intros H. apply EV_same; [reflexivity|apply done_Vsame, H]. Qed.
Lemma EV_c_po : preorder (fun a b => EV (Cl a) (Cl b)).
Proof. split; intros; [apply EV_refl|eapply EV_trans; eassumption]. Qed.
Lemma EV_ceng {A} (m : M Eng12 A) : pres Vsame m -> pres (fun a b => EV (Cl a) (Cl b)) (ceng m).
Proof.
  intros H c. apply (wp_zoom cl_eng set_cl_eng m (fun _ c' => EV (Cl c) (Cl c'))).
  eapply wp_mono; [apply (wp_pres Vsame), H|]. cbv beta. intros r e HV. apply EV_Vsame, HV.
Qed.

Lemma c_step_ev st c : inv_c E st c -> wp (c_step E st) (ev_post c) c.
Proof.
  intros I. destruct (N.lt_ge_cases (c_rank st) 14) as [L|L].
  - pose proof (inv_low_release st c ltac:(lia) I) as R.
    eapply wp_mono; [apply wp_conj; [apply inv_c_step, I|apply wp_conj;
      [apply c_step_low, L|apply (wp_pres (fun a b => pc_only (Cl a) (Cl b))), c_step_pc; lia]]|].
    cbv beta. intros r c' (P & Q & l & H1 & H2). exists l. split; [exact H1|].
    split; unfold end_release; cbn [end_eng]; [congruence|]. intros _. left. split; [|exact H2].
    destruct r as [st'|x|x]; cbn [post] in P; [apply (inv_low_release st' c' Q P)|
      apply (inv_low_release st c' ltac:(lia) P)..].
  - destruct st; cbn in L; try lia.
    + apply await_finished_ev, I.
    + cbn [c_step]. unfold c_await_application_data. apply (wp_pres (fun a b => EV (Cl a) (Cl b))).
      presauto EV_c_po ltac:(first [apply EV_ceng, v_discard | apply EV_ceng, v_create_record
       | apply pres_iterM; [exact EV_c_po|intro; apply EV_ceng, v_create_record]
       | apply pres_modify; intro; apply EV_same; [reflexivity|constructor; reflexivity]]).
    + apply wp_ret, EV_refl.
Qed.

Definition IEc (a b : Client12) : Prop := inv_client E a -> inv_client E b /\ EV (Cl a) (Cl b).
Lemma IEc_po : preorder IEc.
Proof.
  split; [intros a I; split; [exact I|apply EV_refl]|].
  intros a b c H1 H2 I. destruct (H1 I) as [I1 V1]. destruct (H2 I1) as [I2 V2].
  split; [exact I2|eapply EV_trans; eassumption].
Qed.

Lemma IEc_progress n : pres IEc (c_progress E n).
Proof.
  induction n as [|n IH]; [apply (pres_panic _ IEc_po)|].
  cbn [c_progress]. intro c.
  apply (wp_bind get _ (fun _ c' => IEc c c')), wp_get, wp_bind, wp_intro. intros r c' Hr.
  assert (Hs : cl_state c' = cl_state c) by (pose proof (c_step_state E (cl_state c) c) as S; rewrite Hr in S; exact S).
  assert (K : inv_client E c -> post E (cl_state c) r c' /\ EV (Cl c) (Cl c')).
  { intros I. split; [exact (wp_run _ _ _ _ _ Hr (inv_c_step E _ _ I))|exact (wp_run _ _ _ _ _ Hr (c_step_ev _ _ I))]. }
  destruct r as [st|x|x]; cbn [post] in K; [|intro I; destruct (K I) as [P V]; split; [unfold inv_client; rewrite Hs; exact P|exact V]..].
  destruct (cstate12_eqb (cl_state c) st) eqn:Heq.
  - apply wp_ret. intro I. destruct (K I) as [P V]. split; [|exact V]. unfold cstate12_eqb in Heq.
    destruct (cstate12_eq_dec (cl_state c) st); [|discriminate]. subst st. unfold inv_client. rewrite Hs. exact P.
  - apply wp_bind, wp_modify. eapply wp_mono; [apply (wp_pres IEc), IH|]. cbv beta. intros r2 c2 H2 I.
    destruct (K I) as [P V].
    assert (I1 : inv_client E (set_cl_state st c')).
    { unfold inv_client. ecbn. eapply inv_same; [| |exact P]; [apply Vsame_Tsame, Vsame_refl|repeat split]. }
    destruct (H2 I1) as [I2 V2].
    split; [exact I2|]. eapply EV_trans; [exact V|]. eapply EV_trans; [|exact V2].
    apply EV_same; [reflexivity|constructor; reflexivity].
Qed.

Lemma IEc_inv {A} (m : M Client12 A) : pres (fun a b => inv_client E a -> inv_client E b) m ->
  pres (fun a b => EV (Cl a) (Cl b)) m -> pres IEc m.
Proof. intros H1 H2 c I. split; [apply H1, I|apply H2]. Qed.
Lemma IEc_eng {A} (m : M Eng12 A) : pres Vsame m -> pres IEc (ceng m).
Proof. intros H. apply IEc_inv; [apply inv_eng_same, H|apply EV_ceng, H]. Qed.

(** Aborting keeps [release]. *)
Lemma done_Tsame_c c e : Tsame (cl_eng c) e -> done_same (Cl c) (Cl (set_cl_eng e c)).
Proof. intros []. constructor; unfold end_release; cbn [end_eng end_srtp end_certs]; ecbn; auto. Qed.

Lemma EV_c_timeout now : pres (fun a b => EV (Cl a) (Cl b)) (ceng (eng12_handle_timeout E now)).
Proof.
  intros c. apply (wp_zoom cl_eng set_cl_eng (eng12_handle_timeout E now) (fun _ c' => EV (Cl c) (Cl c'))).
  eapply wp_mono; [apply (wp_pres Tsame), v_handle_timeout|]. cbv beta. intros r e HT.
  apply EV_same; [reflexivity|apply done_Tsame_c, HT].
Qed.

Lemma inv_c_timeout now : pres (fun a b => inv_client E a -> inv_client E b) (ceng (eng12_handle_timeout E now)).
Proof.
  intros c I. apply (wp_zoom cl_eng set_cl_eng (eng12_handle_timeout E now) (fun _ c' => inv_client E c')).
  eapply wp_mono; [apply (wp_pres Tsame), v_handle_timeout|]. cbv beta. intros r e HT.
  unfold inv_client. eapply inv_same; [| |exact I]; [exact HT|repeat split].
Qed.

Definition not_poll (c : Call) : Prop := match c with Poll _ => False | _ => True end.

Lemma client_call_ev c : not_poll c -> pres IEc (client12_call E c).
Proof.
  assert (PO := IEc_po). intros NP.
  assert (Hst : forall f, (forall c, Tsame (cl_eng c) (cl_eng (f c)) /\ same_c c (f c) /\ cl_state (f c) = cl_state c /\
      cl_events (f c) = cl_events c) -> pres IEc (modify f)).
  { intros f Hf x I. destruct (Hf x) as (H1 & (H2 & H3 & H4 & H5 & H6) & H7 & H8). split.
    - unfold inv_client. cbn. rewrite H7. eapply inv_same; [exact H1| |exact I]. repeat split; assumption.
    - apply EV_same; [exact H8|]. destruct H1. constructor; unfold end_release; cbn [end_eng end_srtp end_certs fst snd modify]; auto. }
  assert (Ht : forall x, Tsame x x) by (intro; apply Vsame_Tsame, Vsame_refl).
  destruct c; try destruct NP; cbn [client12_call]; unfold no_output, some_output.
  - unfold client12_handle_packet, c_make_progress.
    presauto PO ltac:(first [apply lf_public | apply IEc_progress | apply IEc_eng, v_parse]).
  - unfold client12_handle_timeout, c_make_progress.
    apply (pres_bind _ PO); [|intro; apply (pres_ret _ PO)].
    apply (pres_bind _ PO); [apply Hst; intro; repeat split; ecbn; auto; tauto|intros _].
    intros x. apply (wp_bind get _ (fun _ c' => IEc x c')), wp_get.
    assert (K2 : pres IEc (ceng (eng12_handle_timeout E now);;; public (c_progress E 40))).
    { apply (pres_bind _ PO); [apply IEc_inv; [apply inv_c_timeout|apply EV_c_timeout]|].
      intro. apply lf_public, IEc_progress. }
    destruct (cl_random x) eqn:Hr; [apply wp_bind, wp_ret, (wp_pres IEc), K2|].
    apply wp_bind, wp_bind. unfold ceng at 1. apply wp_zoom.
    eapply wp_mono; [apply (wp_pres Vsame), v_random_with_time|]. cbv beta. intros r e1 HV.
    assert (H1 : IEc x (set_cl_eng e1 x)).
    { intro I. split; [|apply EV_Vsame, HV]. unfold inv_client. eapply inv_same; [| |exact I]; [apply Vsame_Tsame, HV|repeat split]. }
    destruct r as [rb|?|?]; try exact H1.
    apply wp_modify. eapply wp_mono; [apply (wp_pres IEc), K2|]. cbv beta. intros r2 x2 H2 I.
    destruct (H1 I) as [I1 V1].
    destruct (H2 (inv_set_random E rb (set_cl_eng e1 x) Hr I1)) as [I2 V2]. split; [exact I2|].
    eapply EV_trans; [exact V1|]. eapply EV_trans; [|exact V2].
    apply EV_same; [reflexivity|constructor; reflexivity].
  - unfold client12_send.
    presauto PO ltac:(first [apply IEc_eng, v_create_record | apply Hst; intro; repeat split; ecbn; auto; tauto]).
  - apply IEc_inv; [exact (inv_call E Close)|].
    apply (pres_bind _ EV_c_po); [|intro; apply (pres_ret _ EV_c_po)]. unfold client12_close.
    presauto EV_c_po ltac:(first [apply EV_ceng, v_create_record
      | apply pres_modify; intro; apply EV_same; [reflexivity|constructor; reflexivity] | idtac]).
    all: intros c; apply (wp_zoom cl_eng set_cl_eng eng12_abort (fun _ c' => EV (Cl c) (Cl c')));
      apply v_abort; intros e HV; apply EV_same; [reflexivity|];
      constructor; unfold end_release; cbn [end_eng end_srtp end_certs]; vrw; reflexivity.
Qed.

(** ** Server *)

Lemma s_step_low st : s_rank st < 12 -> forall c,
  wp (s_step E st) (fun r _ => match r with Ok st' => s_rank st' < 13 | _ => True end) c.
Proof.
  intros H c. destruct st; cbn [s_rank] in H; try lia; unfold_s_step; cbv zeta; res_only;
    try (cbn [s_rank]; lia);
    repeat match goal with |- context [if ?b then _ else _] => destruct b end; cbn [s_rank]; lia.
Qed.

Lemma s_step_pc st : s_rank st <> 12 -> pres (fun a b => pc_only (Sv a) (Sv b)) (s_step E st).
Proof.
  intros Hst.
  assert (PO : preorder (fun a b => pc_only (Sv a) (Sv b))).
  { split; intros; [apply pc_only_po|eapply pc_only_po; eassumption]. }
  assert (Hz : forall A (m : M Eng12 A), pres (fun a b => pc_only (Sv a) (Sv b)) (seng m)).
  { intros A m c. unfold seng, zoom. destruct (m (sv_eng c)). apply pc_same. reflexivity. }
  destruct st; cbn [s_rank] in Hst; try lia; unfold_s_step;
    presauto PO ltac:(first [apply Hz | apply pres_iterM; [exact PO|intro; apply Hz]
      | apply pres_modify; intro; first [apply pc_same; reflexivity|apply pc_one; reflexivity]]).
Qed.

Lemma inv_s_low_release st c : s_rank st < 13 -> inv_s E st c -> en_release (sv_eng c) = false.
Proof. intros H [[T _] _]. destruct st; cbn in H; try lia; apply T. Qed.

Definition ev_post_s (c : Server12) (_ : res SState12) (c' : Server12) : Prop := EV (Sv c) (Sv c').

Lemma send_finished_ev c : inv_s E SS_SendFinished c -> wp (s_send_finished E) (ev_post_s c) c.
Proof.
  intros I. assert (R : en_release (sv_eng c) = false) by (eapply inv_s_low_release; [|exact I]; reflexivity).
  unfold s_send_finished, seng, ev_post_s.
  assert (Same : forall c', sv_events c' = sv_events c -> en_release (sv_eng c') = false -> EV (Sv c) (Sv c')).
  { intros c' H1 H2. exists []. rewrite app_nil_r. split; [exact H1|]. split; unfold end_release; cbn [end_eng]; [congruence|auto]. }
  wps. apply v_create_handshake. apply gvd_spec; [intros; apply Same; auto|].
  intros vd cs ms Hcs _ _ _ r e1 HV1. destruct r; [|apply Same; vrw; auto..].
  wps. apply v_flight_stop. intros e2 HV2. ecbn_in HV2.
  wpstep. wpstep. wpstep. wpstep. wpstep. ecbn.
  assert (K : forall c2 kl (Q := fun (_ : res SState12) c' => EV (Sv c) (Sv c')),
    sv_events c2 = sv_events c ++ LE_Connected :: kl ->
    klist (Sv c2) kl ->
    wp (zoom sv_eng set_sv_eng release_application_data;;; ret SS_AwaitApplicationData) Q c2).
  { intros c2 kl Q H1 H2. unfold Q. wps. ecbn. apply v_release. intros e3 HV3. wps.
    exists (LE_Connected :: kl). split; [exact H1|]. split; unfold end_release; cbn [end_eng]; [congruence|].
    intros _. right. split; [vrw; reflexivity|]. exists [], kl. split; [reflexivity|]. split; [constructor|].
    split; [apply H2|]. eapply Forall_impl; [|apply H2]. intros ev (km & p & cs' & -> & K1 & K2 & K3). exists km, p, cs'.
    cbn [end_srtp end_eng] in *. vrw. auto. }
  destruct (sv_srtp c) as [p|] eqn:Hsrtp; [|wps; eapply K; [ecbn; reflexivity|apply klist_nil]].
  assert (Hcs2 : en_suite e2 = Some cs) by (vrw; exact Hcs). rewrite Hcs2.
  destruct (extract_srtp12 _ _ _ _) as [km|] eqn:Hx; wpstep; wpstep.
  - eapply (K _ [LE_Keying km p]); [ecbn; rewrite <- app_assoc; reflexivity|].
    apply klist_one. exists km, p, cs. cbn [end_srtp end_eng]. ecbn. auto.
  - eapply K; [ecbn; reflexivity|apply klist_nil].
Qed.

Lemma done_Tsame_s c e : Tsame (sv_eng c) e -> done_same (Sv c) (Sv (set_sv_eng e c)).
Proof. intros []. constructor; unfold end_release; cbn [end_eng end_srtp end_certs]; ecbn; auto. Qed.
Lemma EV_s_Vsame c e : Vsame (sv_eng c) e -> EV (Sv c) (Sv (set_sv_eng e c)).
Proof. intros H. apply EV_same; [reflexivity|apply done_Tsame_s, Vsame_Tsame, H]. Qed.
Lemma EV_s_po : preorder (fun a b => EV (Sv a) (Sv b)).
Proof. split; intros; [apply EV_refl|eapply EV_trans; eassumption]. Qed.
Lemma EV_seng {A} (m : M Eng12 A) : pres Vsame m -> pres (fun a b => EV (Sv a) (Sv b)) (seng m).
Proof.
  intros H c. apply (wp_zoom sv_eng set_sv_eng m (fun _ c' => EV (Sv c) (Sv c'))).
  eapply wp_mono; [apply (wp_pres Vsame), H|]. cbv beta. intros r e HV. apply EV_s_Vsame, HV.
Qed.

Lemma s_step_ev st c : inv_s E st c -> wp (s_step E st) (ev_post_s c) c.
Proof.
  intros I. destruct (N.lt_ge_cases (s_rank st) 12) as [L|L].
  - pose proof (inv_s_low_release st c ltac:(lia) I) as R.
    eapply wp_mono; [apply wp_conj; [apply inv_s_step, I|apply wp_conj;
      [apply s_step_low, L|apply (wp_pres (fun a b => pc_only (Sv a) (Sv b))), s_step_pc; lia]]|].
    cbv beta. intros r c' (P & Q & l & H1 & H2). exists l. split; [exact H1|].
    split; unfold end_release; cbn [end_eng]; [congruence|]. intros _. left. split; [|exact H2].
    destruct r as [st'|x|x]; cbn [post_s] in P; [apply (inv_s_low_release st' c' Q P)|
      apply (inv_s_low_release st c' ltac:(lia) P)..].
  - destruct st; cbn in L; try lia.
    + apply send_finished_ev, I.
    + cbn [s_step]. unfold s_await_application_data. apply (wp_pres (fun a b => EV (Sv a) (Sv b))).
      presauto EV_s_po ltac:(first [apply EV_seng, v_discard | apply EV_seng, v_create_record
       | apply pres_iterM; [exact EV_s_po|intro; apply EV_seng, v_create_record]
       | apply pres_modify; intro; apply EV_same; [reflexivity|constructor; reflexivity]]).
    + apply wp_ret, EV_refl.
Qed.

Definition IEs (a b : Server12) : Prop := inv_server E a -> inv_server E b /\ EV (Sv a) (Sv b).
Lemma IEs_po : preorder IEs.
Proof.
  split; [intros a I; split; [exact I|apply EV_refl]|].
  intros a b c H1 H2 I. destruct (H1 I) as [I1 V1]. destruct (H2 I1) as [I2 V2].
  split; [exact I2|eapply EV_trans; eassumption].
Qed.

Lemma IEs_progress n : pres IEs (s_progress E n).
Proof.
  induction n as [|n IH]; [apply (pres_panic _ IEs_po)|].
  cbn [s_progress]. intro c.
  apply (wp_bind get _ (fun _ c' => IEs c c')), wp_get, wp_bind, wp_intro. intros r c' Hr.
  assert (Hs : sv_state c' = sv_state c) by (pose proof (s_step_state E (sv_state c) c) as S; rewrite Hr in S; exact S).
  assert (K : inv_server E c -> post_s E (sv_state c) r c' /\ EV (Sv c) (Sv c')).
  { intros I. split; [exact (wp_run _ _ _ _ _ Hr (inv_s_step E _ _ I))|exact (wp_run _ _ _ _ _ Hr (s_step_ev _ _ I))]. }
  destruct r as [st|x|x]; cbn [post_s] in K; [|intro I; destruct (K I) as [P V]; split; [unfold inv_server; rewrite Hs; exact P|exact V]..].
  destruct (sstate12_eqb (sv_state c) st) eqn:Heq.
  - apply wp_ret. intro I. destruct (K I) as [P V]. split; [|exact V]. unfold sstate12_eqb in Heq.
    destruct (sstate12_eq_dec (sv_state c) st); [|discriminate]. subst st. unfold inv_server. rewrite Hs. exact P.
  - apply wp_bind, wp_modify. eapply wp_mono; [apply (wp_pres IEs), IH|]. cbv beta. intros r2 c2 H2 I.
    destruct (K I) as [P V].
    assert (I1 : inv_server E (set_sv_state st c')).
    { unfold inv_server. ecbn. eapply inv_s_same; [| |exact P]; [apply Vsame_Tsame, Vsame_refl|repeat split]. }
    destruct (H2 I1) as [I2 V2].
    split; [exact I2|]. eapply EV_trans; [exact V|]. eapply EV_trans; [|exact V2].
    apply EV_same; [reflexivity|constructor; reflexivity].
Qed.

Lemma IEs_inv {A} (m : M Server12 A) : pres (fun a b => inv_server E a -> inv_server E b) m ->
  pres (fun a b => EV (Sv a) (Sv b)) m -> pres IEs m.
Proof. intros H1 H2 c I. split; [apply H1, I|apply H2]. Qed.
Lemma IEs_eng {A} (m : M Eng12 A) : pres Vsame m -> pres IEs (seng m).
Proof. intros H. apply IEs_inv; [apply inv_s_eng_same, H|apply EV_seng, H]. Qed.

Lemma EV_s_timeout now : pres (fun a b => EV (Sv a) (Sv b)) (seng (eng12_handle_timeout E now)).
Proof.
  intros c. apply (wp_zoom sv_eng set_sv_eng (eng12_handle_timeout E now) (fun _ c' => EV (Sv c) (Sv c'))).
  eapply wp_mono; [apply (wp_pres Tsame), v_handle_timeout|]. cbv beta. intros r e HT.
  apply EV_same; [reflexivity|apply done_Tsame_s, HT].
Qed.
Lemma inv_s_timeout now : pres (fun a b => inv_server E a -> inv_server E b) (seng (eng12_handle_timeout E now)).
Proof.
  intros c I. apply (wp_zoom sv_eng set_sv_eng (eng12_handle_timeout E now) (fun _ c' => inv_server E c')).
  eapply wp_mono; [apply (wp_pres Tsame), v_handle_timeout|]. cbv beta. intros r e HT.
  unfold inv_server. eapply inv_s_same; [| |exact I]; [exact HT|repeat split].
Qed.

Lemma server_call_ev c : not_poll c -> pres IEs (server12_call E c).
Proof.
  assert (PO := IEs_po). intros NP.
  assert (Hst : forall f, (forall c, Tsame (sv_eng c) (sv_eng (f c)) /\ same_s c (f c) /\ sv_state (f c) = sv_state c /\
      sv_events (f c) = sv_events c) -> pres IEs (modify f)).
  { intros f Hf x I. destruct (Hf x) as (H1 & (H2 & H3 & H4 & H5 & H6 & H6') & H7 & H8). split.
    - unfold inv_server. cbn. rewrite H7. eapply inv_s_same; [exact H1| |exact I]. repeat split; assumption.
    - apply EV_same; [exact H8|]. destruct H1. constructor; unfold end_release; cbn [end_eng end_srtp end_certs fst snd modify]; auto. }
  assert (Ht : forall x, Tsame x x) by (intro; apply Vsame_Tsame, Vsame_refl).
  destruct c; try destruct NP; cbn [server12_call]; unfold no_output, some_output.
  - unfold server12_handle_packet, s_make_progress.
    presauto PO ltac:(first [apply lf_public | apply IEs_progress | apply IEs_eng, v_parse]).
  - unfold server12_handle_timeout, s_make_progress.
    presauto PO ltac:(first [apply lf_public | apply IEs_progress | apply IEs_eng, v_random_with_time
     | apply Hst; intro; repeat split; ecbn; auto; tauto | apply IEs_inv; [apply inv_s_timeout|apply EV_s_timeout]]).
  - unfold server12_send.
    presauto PO ltac:(first [apply IEs_eng, v_create_record | apply Hst; intro; repeat split; ecbn; auto; tauto]).
  - apply IEs_inv; [exact (inv_s_call E Close)|].
    apply (pres_bind _ EV_s_po); [|intro; apply (pres_ret _ EV_s_po)]. unfold server12_close.
    presauto EV_s_po ltac:(first [apply EV_seng, v_create_record
      | apply pres_modify; intro; apply EV_same; [reflexivity|constructor; reflexivity] | idtac]).
    all: intros c; apply (wp_zoom sv_eng set_sv_eng eng12_abort (fun _ c' => EV (Sv c) (Sv c')));
      apply v_abort; intros e HV; apply EV_same; [reflexivity|];
      constructor; unfold end_release; cbn [end_eng end_srtp end_certs]; vrw; reflexivity.
Qed.

(** ** Endpoint *)

Definition inv_end (s : End12) : Prop :=
  match s with Cl c => inv_client E c | Sv c => inv_server E c end.

Lemma call_ev c s r s' : not_poll c -> inv_end s -> end12_call E c s = (r, s') -> inv_end s' /\ EV s s'.
Proof.
  intros NP I. destruct s as [x|x]; cbn [end12_call inv_end] in *.
  - pose proof (client_call_ev c NP x I) as H. destruct (client12_call E c x). intros [= <- <-]. exact H.
  - pose proof (server_call_ev c NP x I) as H. destruct (server12_call E c x). intros [= <- <-]. exact H.
Qed.
Lemma call_inv c s r s' : inv_end s -> end12_call E c s = (r, s') -> inv_end s'.
Proof.
  intros I. destruct s as [x|x]; cbn [end12_call inv_end] in *.
  - pose proof (inv_call E c x I) as H. destruct (client12_call E c x). intros [= <- <-]. exact H.
  - pose proof (inv_s_call E c x I) as H. destruct (server12_call E c x). intros [= <- <-]. exact H.
Qed.

Lemma start_inv cfg auth s : start12 E cfg auth s -> inv_end s.
Proof.
  intros H. assert (K : inv_end s /\ (en_connect (end_eng s) <> Disabled /\ en_flight (end_eng s) <> Disabled /\
    en_release (end_eng s) = false /\ k_kx (en_crypto (end_eng s)) = None) /\ end_events s = []).
  { induction H as [now|s0 H (_ & (H1 & H2 & H3 & H4) & _)|c0 H (_ & (H1 & H2 & H3 & H4) & _)].
    - split; [|repeat split; cbn; discriminate]. apply inv_s_new; cbn; congruence.
    - split; [|repeat split; assumption]. apply inv_new; assumption.
    - split; [|repeat split; assumption]. apply inv_s_new; assumption. }
  apply K.
Qed.

Lemma reach_end_inv cfg auth h s : reach12 E cfg auth h s -> inv_end s.
Proof.
  intros (s0 & H0 & H). apply start_inv in H0.
  induction H as [|h s c r s' H IH NP C]; [exact H0|]. eapply call_inv; [exact IH|exact C].
Qed.

(** A poll takes the first event or leaves the events alone. *)
Lemma poll_ev cap s r s' : end12_call E (Poll cap) s = (r, s') ->
  done_same s s' /\
  ((exists ev l, end_events s = ev :: l /\ end_events s' = l /\
    (panicked r \/ r = Ok (Some (event_value (end_certs s) ev)) /\ (ev = LE_PeerCert -> end_certs s <> [])))
  \/ (end_events s = [] /\ end_events s' = [] /\
      forall o, r = Ok (Some o) -> o <> OConnected /\ (forall x, o <> OPeerCert x) /\ (forall m p, o <> OKeying m p))).
Proof.
  rewrite poll_unfold. intros H.
  assert (D : forall l, done_same s (set_end_events l s)) by (intro; destruct s; constructor; reflexivity).
  assert (V : forall l, end_events (set_end_events l s) = l) by (destruct s; reflexivity).
  destruct (end_events s) as [|ev l] eqn:He.
  - destruct (eng12_poll_output cap (end_now s) (end_eng s)) as [r0 e0] eqn:Hp. injection H as <- <-.
    split.
    + assert (HV : Vsame (end_eng s) e0) by (pose proof (v_poll cap (end_now s) (end_eng s)) as X; rewrite Hp in X; exact X).
      destruct s; [apply done_Vsame, HV|apply done_Tsame_s, Vsame_Tsame, HV].
    + right. split; [reflexivity|]. split; [rewrite end_events_set_eng; exact He|].
      intros o Ho. destruct r0 as [o0|?|?]; [|discriminate..]. injection Ho as ->.
      assert (X : wp (eng12_poll_output cap (end_now s)) (fun r _ => match r with
          Ok o => o <> OConnected /\ (forall x, o <> OPeerCert x) /\ (forall m p, o <> OKeying m p) | _ => True end) (end_eng s)).
      { unfold eng12_poll_output, poll_app_data, poll_packet_tx. wps; repeat split; try discriminate; try exact I. }
      unfold wp in X. rewrite Hp in X. exact X.
  - destruct ev as [| |m p]; injection H as <- <-; (split; [apply D|left]).
    + exists LE_PeerCert, l. rewrite V. split; [reflexivity|]. split; [reflexivity|].
      destruct (end_certs s) as [|x more] eqn:Hc; [left; exact I|]. destruct (_ <=? _); [right|left; exact I].
      split; [reflexivity|discriminate].
    + exists LE_Connected, l. rewrite V. split; [reflexivity|]. split; [reflexivity|]. right. split; [reflexivity|discriminate].
    + exists (LE_Keying m p), l. rewrite V. split; [reflexivity|]. split; [reflexivity|]. right. split; [reflexivity|discriminate].
Qed.

(** Certificates are only added. *)
Lemma certs_grow c s r s' : end12_call E c s = (r, s') -> exists l, end_certs s' = end_certs s ++ l.
Proof.
  assert (PC : preorder (fun a b => exists l, cl_certs b = cl_certs a ++ l)).
  { split; intros; [exists []; rewrite app_nil_r; reflexivity|].
    destruct H as [l Hl], H0 as [l' ->]. rewrite Hl. exists (l ++ l'). rewrite app_assoc. reflexivity. }
  assert (PS : preorder (fun a b => exists l, sv_certs b = sv_certs a ++ l)).
  { split; intros; [exists []; rewrite app_nil_r; reflexivity|].
    destruct H as [l Hl], H0 as [l' ->]. rewrite Hl. exists (l ++ l'). rewrite app_assoc. reflexivity. }
  assert (HE : forall A (m : M Eng12 A), pres (fun a b => exists l, cl_certs b = cl_certs a ++ l) (ceng m)).
  { intros A m c0. unfold ceng, zoom. destruct (m (cl_eng c0)). exists []. rewrite app_nil_r. reflexivity. }
  assert (HF : forall A (m : M Eng12 A), pres (fun a b => exists l, sv_certs b = sv_certs a ++ l) (seng m)).
  { intros A m c0. unfold seng, zoom. destruct (m (sv_eng c0)). exists []. rewrite app_nil_r. reflexivity. }
  assert (HX : forall es b, pres (fun a b => exists l, cl_certs b = cl_certs a ++ l) (sh12_extensions b es)).
  { induction es as [|[t d] es IH]; intro b; cbn [sh12_extensions];
      presauto PC ltac:(first [apply IH | apply pres_modify; intro; exists []; rewrite app_nil_r; reflexivity]). }
  assert (SC : forall st, pres (fun a b => exists l, cl_certs b = cl_certs a ++ l) (c_step E st)).
  { destruct st; unfold_c_step; presauto PC ltac:(first [apply HE | apply HX
      | apply pres_modify; intro; first [exists []; rewrite app_nil_r; reflexivity | eexists; reflexivity]
      | apply pres_iterM; [exact PC|intro; apply HE]]). }
  assert (SS : forall st, pres (fun a b => exists l, sv_certs b = sv_certs a ++ l) (s_step E st)).
  { destruct st; unfold_s_step; presauto PS ltac:(first [apply HF
      | apply pres_modify; intro; first [exists []; rewrite app_nil_r; reflexivity | eexists; reflexivity]
      | apply pres_iterM; [exact PS|intro; apply HF]]). }
  destruct s as [x|x]; cbn [end12_call].
  - destruct (client12_call E c x) eqn:H. intros [= <- <-].
    pose proof (cf_call E (fun a b => exists l, cl_certs b = cl_certs a ++ l)) as K.
    specialize (K PC). 
    assert (K' : pres (fun a b => exists l, cl_certs b = cl_certs a ++ l) (client12_call E c)).
    { apply K; try exact SC; intros; exists []; rewrite app_nil_r; reflexivity. }
    specialize (K' x). rewrite H in K'. exact K'.
  - destruct (server12_call E c x) eqn:H. intros [= <- <-].
    assert (K' : pres (fun a b => exists l, sv_certs b = sv_certs a ++ l) (server12_call E c)).
    { apply (sf_call E _ PS); try exact SS; intros; exists []; rewrite app_nil_r; reflexivity. }
    specialize (K' x). rewrite H in K'. exact K'.
Qed.

(** ** Outputs of histories *)

Definition is_event (o : Output) : bool :=
  match o with OConnected | OPeerCert _ | OKeying _ _ => true | _ => false end.

Definition exports (s : End12) (km : bytes) (p : N) : Prop := keying_ok s (LE_Keying km p).

Definition is_leaf (s : End12) (o : Output) : Prop :=
  exists x, o = OPeerCert x /\ hd_error (end_certs s) = Some x.
Definition is_export (s : End12) (o : Output) : Prop := exists km p, o = OKeying km p /\ exports s km p.

(** The local events of a connection, in order. *)
Definition event_trace (s : End12) (l : list Output) : Prop :=
  if end_release s
  then exists pc kl, l = pc ++ OConnected :: kl /\ Forall (is_leaf s) pc /\
         (List.length kl <= 1)%nat /\ Forall (is_export s) kl
  else Forall (is_leaf s) l.

Lemma leaf_grow s s' o : (exists l, end_certs s' = end_certs s ++ l) -> is_leaf s o -> is_leaf s' o.
Proof.
  intros [l H] (x & -> & Hx). exists x. split; [reflexivity|]. rewrite H.
  destruct (end_certs s); [discriminate|exact Hx].
Qed.

Lemma trace_same s s' l : done_same s s' -> event_trace s l -> event_trace s' l.
Proof.
  intros D. unfold event_trace. rewrite (d_release _ _ D).
  assert (L : forall o, is_leaf s o -> is_leaf s' o).
  { intro o. apply leaf_grow. exists []. rewrite app_nil_r. apply D. }
  assert (X : forall o, is_export s o -> is_export s' o).
  { intros o (km & p & -> & km' & p' & cs & [= <- <-] & K1 & K2 & K3). exists km, p. split; [reflexivity|].
    exists km, p, cs. rewrite (d_srtp _ _ D), (d_suite _ _ D), (d_crypto _ _ D). auto. }
  destruct (end_release s).
  - intros (pc & kl & -> & H1 & H2 & H3). exists pc, kl. split; [reflexivity|].
    split; [eapply Forall_impl; [|exact H1]; exact L|]. split; [exact H2|]. eapply Forall_impl; [|exact H3]; exact X.
  - intros H. eapply Forall_impl; [|exact H]; exact L.
Qed.

Lemma trace_drop s a x b : event_trace s (a ++ OPeerCert x :: b) -> event_trace s (a ++ b).
Proof.
  unfold event_trace. destruct (end_release s).
  - intros (pc & kl & H & H1 & H2 & H3).
    assert (K : exists l, pc = a ++ OPeerCert x :: l /\ b = l ++ OConnected :: kl).
    { clear H1 H2. revert pc H. induction a as [|y a IH]; intros pc H.
      - destruct pc as [|z pc]; cbn in H; [discriminate|]. injection H as <- ->. exists pc. auto.
      - destruct pc as [|z pc]; cbn in H.
        + injection H as _ Hk. exfalso. clear IH. rewrite <- Hk, Forall_app in H3. destruct H3 as [_ H3].
          inversion H3 as [|? ? (km & p & Hx & _)]. discriminate.
        + injection H as <- H. destruct (IH pc H) as (l & -> & ->). exists l. auto. }
    destruct K as (l & -> & ->). exists (a ++ l), kl. rewrite app_assoc. split; [reflexivity|].
    rewrite Forall_app in *. destruct H1 as [H1 H4]. inversion H4; subst. auto.
  - rewrite !Forall_app. intros [H1 H2]. inversion H2. auto.
Qed.

Lemma outputs_app h h' : outputs (h ++ h') = outputs h ++ outputs h'.
Proof. unfold outputs. apply flat_map_app. Qed.

Definition events_of (h : list (Call * Reply)) : list Output := filter is_event (outputs h).
Lemma events_of_app h h' : events_of (h ++ h') = events_of h ++ events_of h'.
Proof. unfold events_of. rewrite outputs_app, filter_app. reflexivity. Qed.

Lemma event_value_event certs ev : is_event (event_value certs ev) = true.
Proof. destruct ev; reflexivity. Qed.

Lemma no_output_event c s r s' : not_poll c -> end12_call E c s = (r, s') -> events_of [(c, r)] = [].
Proof.
  intros NP H.
  assert (K : match r with Ok (Some _) => False | _ => True end).
  { destruct s as [x|x]; cbn [end12_call] in H.
    - destruct (client12_call E c x) as [r0 x'] eqn:Hc. injection H as <- <-.
      assert (W : wp (client12_call E c) (fun r _ => match r with Ok (Some _) => False | _ => True end) x).
      { destruct c; try destruct NP; cbn [client12_call]; unfold no_output; apply wp_bind, wp_intro;
          intros [?|?|?] ? _; exact I. }
      unfold wp in W. rewrite Hc in W. exact W.
    - destruct (server12_call E c x) as [r0 x'] eqn:Hc. injection H as <- <-.
      assert (W : wp (server12_call E c) (fun r _ => match r with Ok (Some _) => False | _ => True end) x).
      { destruct c; try destruct NP; cbn [server12_call]; unfold no_output; apply wp_bind, wp_intro;
          intros [?|?|?] ? _; exact I. }
      unfold wp in W. rewrite Hc in W. exact W. }
  destruct r as [[o|]|?|?]; [destruct K|reflexivity..].
Qed.

Lemma start_fresh cfg auth s : start12 E cfg auth s -> end_events s = [] /\ end_release s = false.
Proof.
  induction 1 as [now|s0 H IH|c0 H IH]; [split; reflexivity| |]; unfold end_release in *; cbn in *; (split; [reflexivity|apply IH]).
Qed.

Lemma reach_trace cfg auth h s : reach12 E cfg auth h s ->
  event_trace s (events_of h ++ map (event_value (end_certs s)) (end_events s)).
Proof.
  intros (s0 & H0 & H). pose proof (start_fresh _ _ _ H0) as R0.
  assert (Hr : forall h' s', history E s0 h' s' -> reach12 E cfg auth h' s') by (intros; exists s0; auto).
  induction H as [|h s c r s' H IH NP C].
  - unfold event_trace. destruct R0 as [-> ->]. constructor.
  - pose proof (reach_end_inv _ _ _ _ (Hr _ _ H)) as I.
    assert (Hr' : reach12 E cfg auth (h ++ [(c, r)]) s') by (apply Hr; eapply history_snoc; eassumption).
    pose proof (reach_cert_inv _ _ _ _ _ Hr') as CI.
    rewrite events_of_app.
    destruct (match c with Poll _ => true | _ => false end) eqn:Hp.
    + destruct c as [p|cap|now|d|]; try discriminate Hp.
      destruct (poll_ev _ _ _ _ C) as [D [(ev & l & H1 & H2 & H3)|(H1 & H2 & H3)]].
      * apply (trace_same _ _ _ D). rewrite H2, (d_certs _ _ D). rewrite H1 in IH. cbn [map] in IH.
        destruct H3 as [H3|[-> H3]].
        -- destruct r; try destruct H3. unfold events_of at 2. cbn. rewrite app_nil_r.
           destruct ev; [apply trace_drop in IH; exact IH|exfalso..].
           all: rewrite poll_unfold, H1 in C; discriminate.
        -- unfold events_of at 2. cbn. rewrite event_value_event, <- app_assoc. exact IH.
      * apply (trace_same _ _ _ D). rewrite H2. rewrite H1 in IH. cbn [map] in *. rewrite app_nil_r in *.
        replace (events_of [(Poll cap, r)]) with (@nil Output); [rewrite app_nil_r; exact IH|].
        destruct r as [[o|]|?|?]; [|reflexivity..]. destruct (H3 o eq_refl) as (K1 & K2 & K3).
        unfold events_of. cbn. destruct o; try reflexivity; exfalso; first [now apply K1|now eapply K2|now eapply K3].
    + assert (NP' : not_poll c) by (destruct c; [exact Logic.I|discriminate|exact Logic.I..]).
      rewrite (no_output_event _ _ _ _ NP' C), app_nil_r.
      destruct (call_ev _ _ _ _ NP' I C) as [_ (l & Hl & A1 & A2)].
      pose proof (certs_grow _ _ _ _ C) as G.
      assert (LC : forall ev, In ev (end_events s') -> ev = LE_PeerCert ->
        is_leaf s' (event_value (end_certs s') ev)).
      { intros ev Hi ->. specialize (CI Hi). cbn [event_value]. eexists. split; [reflexivity|].
        destruct (end_certs s'); [contradiction|reflexivity]. }
      destruct (end_release s) eqn:Hrel.
      * destruct (A1 eq_refl) as [-> D]. rewrite app_nil_r in Hl. apply (trace_same _ _ _ D).
        rewrite Hl, (d_certs _ _ D). exact IH.
      * unfold event_trace in IH. rewrite Hrel in IH. apply Forall_app in IH. destruct IH as [IH1 IH2].
        assert (F1 : Forall (is_leaf s') (events_of h)) by (eapply Forall_impl; [|exact IH1]; intros o; apply leaf_grow, G).
        assert (F2 : Forall (eq LE_PeerCert) (end_events s)).
        { rewrite Forall_map in IH2. eapply Forall_impl; [|exact IH2]. intros ev (x & Hx & _).
          destruct ev; [reflexivity|discriminate..]. }
        assert (F3 : forall k m, end_events s' = k ++ m -> Forall (eq LE_PeerCert) k ->
          Forall (is_leaf s') (map (event_value (end_certs s')) k)).
        { intros k m Hk Hf. rewrite Forall_map. rewrite Forall_forall in *. intros ev Hi.
          apply LC; [rewrite Hk; apply in_or_app; auto|symmetry; auto]. }
        unfold event_trace. destruct (A2 eq_refl) as [[-> F4]|(-> & pc & kl & -> & F4 & F5 & F6)].
        -- apply Forall_app. split; [exact F1|]. apply (F3 _ []); [rewrite app_nil_r; reflexivity|].
           rewrite Hl. apply Forall_app. auto.
        -- rewrite app_assoc in Hl.
           exists (events_of h ++ map (event_value (end_certs s')) (end_events s ++ pc)), (map (event_value (end_certs s')) kl).
           split; [rewrite Hl, map_app, app_assoc; reflexivity|].
           split; [apply Forall_app; split; [exact F1|apply (F3 _ _ Hl), Forall_app; auto]|].
           rewrite map_length. split; [exact F5|]. rewrite Forall_map. eapply Forall_impl; [|exact F6].
           intros ev K. pose proof K as (km & p & cs & -> & _). exists km, p. split; [reflexivity|exact K].
Qed.
End Ev.
