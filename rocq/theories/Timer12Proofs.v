(** Facts about the timers of a DTLS 1.2 endpoint. *)
From Verif Require Import Prelude PreludeFacts Types Codec Codec12 Record12 Env Config Context12 Monad MonadFacts
  Timer Window Engine12 Client12 Server12 Engine12Frame History12 History12Facts View12
  EndFrame12 ClientInv12 ClientStep12 ServerInv12 ServerStep12 Poll12Proofs Events12.

(** Build an [eng_frame] for a relation that most field updates respect trivially;
    leaves the operations that need an argument. *)
Ltac frame_all pre :=
  constructor; [constructor|..];
  first
    [ solve [pre]
    | solve [intros; apply fr_create_record; pre]
    | solve [intros; apply fr_create_handshake; first [assumption|pre]]
    | solve [intros; apply fr_next_handshake; pre]
    | solve [intros; apply fr_next_record; pre]
    | solve [apply fr_drop_ccs; pre]
    | solve [apply fr_reset_server; pre] | solve [apply fr_reset_client; pre]
    | solve [intros; apply fr_set_suite; pre]
    | solve [apply fr_enable_peer; pre]
    | solve [apply fr_flight_begin; pre]
    | solve [apply fr_flight_stop; pre]
    | solve [apply fr_release; pre] | solve [apply fr_discard; pre] | solve [apply fr_abort; pre]
    | solve [intros; apply fr_parse_packet; pre] | solve [intros; apply fr_poll_output; pre]
    | solve [intros; apply fr_handle_timeout; pre]
    | idtac ].

(** ** [handle_timeout], exactly *)

Definition due (t : Timeout) (now : N) : bool := match t with Armed d => d <=? now | _ => false end.
(** Both timers started if they were not. *)
Definition arm (now : N) (e : Eng12) : Eng12 :=
  let e := if timeout_is_unarmed (en_connect e)
           then set_en_connect (Armed (now + c_hs_timeout (en_cfg e))) e else e in
  if timeout_is_unarmed (en_flight e)
  then set_en_flight (Armed (now + backoff_rto (en_bo e))) e else e.
(** The next, doubled, retransmission deadline. *)
Definition rearm (E : Env) (now : N) (e : Eng12) : Eng12 :=
  let b := backoff_attempt (en_bo e) (e_jitter E (en_orc e)) in
  set_en_flight (Armed (now + backoff_rto b)) (set_en_bo b (set_en_orc (en_orc e + 1) e)).

Lemma handle_timeout_spec E now e : let e1 := arm now e in
  eng12_handle_timeout E now e =
  if due (en_connect e1) now then (Err (ETimeout TO_Connect), e1)
  else if due (en_flight e1) now then
    if backoff_can_retry (en_bo e1) then flight_resend E (rearm E now e1)
    else (Err (ETimeout TO_Handshake), e1)
  else (Ok tt, e1).
Proof.
  cbv zeta. unfold eng12_handle_timeout, draw. unfold bind, get, gets, modify, when, ret, fail.
  unfold arm. destruct (timeout_is_unarmed (en_connect e)) eqn:H1; ecbn;
    destruct (timeout_is_unarmed (en_flight e)) eqn:H2; ecbn; rewrite ?H1, ?H2; ecbn.
  all: match goal with |- context [due ?t ?n] => unfold due at 1; destruct t eqn:?; ecbn end.
  all: repeat match goal with |- context [?a <=? ?b] => destruct (a <=? b) eqn:?; ecbn end; try reflexivity.
  all: match goal with |- context [due ?t ?n] => unfold due; destruct t eqn:?; ecbn end.
  all: repeat match goal with |- context [?a <=? ?b] => destruct (a <=? b) eqn:?; ecbn end; try reflexivity; try congruence.
  all: destruct (backoff_can_retry _); reflexivity.
Qed.

(** ** The back-off *)

(** [k] doublings so far, [bo_left] left. *)
Definition bo_wf (E : Env) (e : Eng12) : Prop :=
  bo_start (en_bo e) = c_rto (en_cfg e) /\ bo_retries (en_bo e) = c_retries (en_cfg e) /\
  bo_left (en_bo e) <= c_retries (en_cfg e) /\
  bo_rto (en_bo e) = c_rto (en_cfg e) * 2 ^ (c_retries (en_cfg e) - bo_left (en_bo e)) /\
  exists t, bo_jitter (en_bo e) = e_jitter E t.
Definition Rbo (E : Env) (a b : Eng12) : Prop := en_cfg b = en_cfg a /\ (bo_wf E a -> bo_wf E b).

Lemma Rbo_po E : preorder (Rbo E).
Proof. split; unfold Rbo; [tauto|]. intros a b c [H1 H2] [H3 H4]. split; [congruence|tauto]. Qed.
Ltac bopre := first [exact (Rbo_po _) | intros; split; [reflexivity|exact (fun H => H)]].

Lemma bo_arm E now e : Rbo E e (arm now e).
Proof.
  unfold arm. destruct (timeout_is_unarmed (en_connect e)); ecbn; destruct (timeout_is_unarmed (en_flight e)); bopre.
Qed.
Lemma bo_rearm E now e : backoff_can_retry (en_bo e) = true -> Rbo E e (rearm E now e).
Proof.
  intros Hr. unfold backoff_can_retry in Hr. split; [reflexivity|]. unfold rearm, bo_wf, backoff_attempt. ecbn.
  replace (bo_left (en_bo e) =? 0) with false by lia.
  cbn [bo_start bo_retries bo_left bo_rto bo_jitter].
  intros (H1 & H2 & H3 & H4 & _). repeat split; try assumption; try lia.
  - rewrite H4.
    replace (c_retries (en_cfg e) - (bo_left (en_bo e) - 1)) with
      (N.succ (c_retries (en_cfg e) - bo_left (en_bo e))) by lia.
    rewrite N.pow_succ_r'. lia.
  - eexists. reflexivity.
Qed.
Lemma bo_frame E : eng_frame E (Rbo E).
Proof.
  frame_all ltac:(bopre).
  - intro s. unfold flight_begin, draw. cbn.
    split; [reflexivity|]. unfold bo_wf. ecbn.
    intros (H1 & H2 & H3 & H4 & _). unfold backoff_reset. cbn [bo_start bo_retries bo_left bo_rto bo_jitter].
    rewrite H1, H2, N.sub_diag. repeat split; try lia. eexists. reflexivity.
  - intros now s. rewrite handle_timeout_spec.
    destruct (due _ _); [apply bo_arm|]. destruct (due _ _); [|apply bo_arm].
    destruct (backoff_can_retry _) eqn:Hr; [|apply bo_arm].
    eapply Rbo_po; [apply (bo_arm E now)|]. eapply Rbo_po; [apply (bo_rearm _ now _ Hr)|].
    apply fr_flight_resend; bopre.
Qed.

Lemma reach_bo E cfg auth h s : reach12 E cfg auth h s -> bo_wf E (end_eng s).
Proof.
  intros H. apply (lf_reach E (Rbo E) (bo_frame E) _ _ _ _ H).
  unfold bo_wf, eng12_new, backoff_new. ecbn. cbn [bo_start bo_retries bo_left bo_rto bo_jitter].
  rewrite N.sub_diag. repeat split; try lia. eexists. reflexivity.
Qed.

(** ** Calls other than [handle_timeout] *)
Section NoTick.
Variable E : Env.
Variable R : Eng12 -> Eng12 -> Prop.
Hypothesis F : step_frame E R.
Hypothesis F_abort : pres R eng12_abort.
Hypothesis F_parse : forall p, pres R (eng12_parse_packet E p).
Hypothesis F_poll : forall cap now, pres R (eng12_poll_output cap now).
Let PO : preorder R := ef_po _ _ F.

Ltac engleaf :=
  first [apply (ef_create_record _ _ F) | apply F_abort | apply F_parse | apply F_poll].
Ltac cleaf :=
  first [ assumption
        | apply (lf_ceng R); solve [presauto PO engleaf]
        | apply pres_modify; intro; apply PO ].
Ltac sleaf :=
  first [ assumption
        | apply (lf_seng R); solve [presauto PO engleaf]
        | apply pres_modify; intro; apply PO ].

Lemma nt_call c s r s' : (forall now, c <> Tick now) -> end12_call E c s = (r, s') -> R (end_eng s) (end_eng s').
Proof.
  intros NT.
  assert (HC : forall x, RC R x (snd (client12_call E c x))).
  { change (pres (RC R) (client12_call E c)).
    destruct c; try (exfalso; eapply NT; reflexivity); cbn [client12_call];
      unfold no_output, some_output, client12_handle_packet,
      client12_poll_output, client12_send, client12_close, c_make_progress;
    presauto (RC_po E R F) ltac:(first [apply lf_public | apply (lf_c_progress E R F)
                               | apply (lf_event _ (RC_po E R F)) | cleaf]). }
  assert (HS : forall x, RS R x (snd (server12_call E c x))).
  { change (pres (RS R) (server12_call E c)).
    destruct c; try (exfalso; eapply NT; reflexivity); cbn [server12_call];
      unfold no_output, some_output, server12_handle_packet,
      server12_poll_output, server12_send, server12_close, s_make_progress;
    presauto (RS_po E R F) ltac:(first [apply lf_public | apply (lf_s_progress E R F)
                               | apply (lf_event _ (RS_po E R F)) | sleaf]). }
  destruct s as [x|x]; cbn [end12_call].
  - specialize (HC x). destruct (client12_call E c x). intros [= <- <-]. exact HC.
  - specialize (HS x). destruct (server12_call E c x). intros [= <- <-]. exact HS.
Qed.
End NoTick.

(** ** [handle_timeout] of the endpoint: the engine's timers, then what an empty
    datagram does *)

Definition set_end_now (now : N) (s : End12) : End12 :=
  match s with Cl c => Cl (set_cl_now now c) | Sv s => Sv (set_sv_now now s) end.
Definition end_random (s : End12) : option bytes :=
  match s with Cl c => cl_random c | Sv s => sv_random s end.
(** The random value is drawn by the first [handle_timeout]. *)
Definition draw_random (E : Env) (now : N) (s : End12) : End12 :=
  match s with
  | Cl c => match cl_random c with
            | Some _ => s
            | None => Cl (set_cl_random (Some (be 4 (now / sec) ++ e_rand E (en_orc (cl_eng c)) 28))
                           (set_cl_eng (set_en_orc (en_orc (cl_eng c) + 1) (cl_eng c)) c))
            end
  | Sv c => match sv_random c with
            | Some _ => s
            | None => Sv (set_sv_random (Some (be 4 (now / sec) ++ e_rand E (en_orc (sv_eng c)) 28))
                           (set_sv_eng (set_en_orc (en_orc (sv_eng c) + 1) (sv_eng c)) c))
            end
  end.

Lemma tick_unfold E now s : let s1 := draw_random E now (set_end_now now s) in
  end12_call E (Tick now) s =
  let '(r, e) := eng12_handle_timeout E now (end_eng s1) in
  match r with
  | Ok _ => end12_call E (Packet []) (set_end_eng e s1)
  | Err x => (Err x, set_end_eng e s1)
  | Panic n => (Panic n, set_end_eng e s1)
  end.
Proof.
  destruct s as [c|c]; cbn [end12_call client12_call server12_call set_end_now draw_random].
  - unfold no_output, client12_handle_timeout, client12_handle_packet, random_with_time, rand_bytes, draw,
      bind, get, gets, modify, ret, ceng, zoom. ecbn.
    destruct (cl_random c) eqn:Hr; cbn [end_eng set_end_eng]; ecbn.
    + destruct (eng12_handle_timeout E now (cl_eng c)) as [[?|?|?] e]; try reflexivity.
    + match goal with |- context [eng12_handle_timeout E now ?x] => destruct (eng12_handle_timeout E now x) as [[?|?|?] e] end; try reflexivity.
  - unfold no_output, server12_handle_timeout, server12_handle_packet, random_with_time, rand_bytes, draw,
      bind, get, gets, modify, ret, seng, zoom. ecbn.
    destruct (sv_random c) eqn:Hr; cbn [end_eng set_end_eng]; ecbn.
    + destruct (eng12_handle_timeout E now (sv_eng c)) as [[?|?|?] e]; try reflexivity.
    + match goal with |- context [eng12_handle_timeout E now ?x] => destruct (eng12_handle_timeout E now x) as [[?|?|?] e] end; try reflexivity.
Qed.

(** ** The overall deadline *)

Definition Rcn (a b : Eng12) : Prop :=
  en_cfg b = en_cfg a /\ (en_connect b = en_connect a \/ en_connect b = Disabled).
Lemma Rcn_po : preorder Rcn.
Proof.
  split; unfold Rcn; [auto|]. intros a b c [H1 H2] [H3 H4]. split; [congruence|].
  destruct H4 as [-> | ->]; auto.
Qed.
Ltac cnpre := first [exact Rcn_po | intros; split; [reflexivity|left; reflexivity]].
Lemma cn_step E : step_frame E Rcn.
Proof.
  constructor;
  first
    [ solve [cnpre]
    | solve [intros; apply fr_create_record; cnpre]
    | solve [intros; apply fr_create_handshake; first [assumption|cnpre]]
    | solve [intros; apply fr_next_handshake; cnpre]
    | solve [intros; apply fr_next_record; cnpre]
    | solve [apply fr_drop_ccs; cnpre]
    | solve [apply fr_reset_server; cnpre] | solve [apply fr_reset_client; cnpre]
    | solve [intros; apply fr_set_suite; cnpre]
    | solve [apply fr_enable_peer; cnpre]
    | solve [apply fr_flight_begin; cnpre]
    | solve [apply fr_release; cnpre] | solve [apply fr_discard; cnpre]
    | idtac ].
  intro s. unfold flight_stop_resend_timers, bind, modify, get, when. ecbn.
  destruct (en_client s); split; ecbn; auto.
Qed.
Lemma cn_call E c s r s' : (forall now, c <> Tick now) -> end12_call E c s = (r, s') ->
  Rcn (end_eng s) (end_eng s').
Proof.
  apply nt_call; [apply cn_step|..].
  - intro e. split; ecbn; auto.
  - intro. apply fr_parse_packet; cnpre.
  - intros. apply fr_poll_output; cnpre.
Qed.

(** The engine after the timers of a [handle_timeout]. *)
Lemma tick_connect E now e r e' : eng12_handle_timeout E now e = (r, e') ->
  en_cfg e' = en_cfg e /\ en_connect e' = en_connect (arm now e).
Proof.
  assert (Hc : en_cfg (arm now e) = en_cfg e).
  { unfold arm. destruct (timeout_is_unarmed (en_connect e)); ecbn; destruct (timeout_is_unarmed (en_flight e)); reflexivity. }
  rewrite handle_timeout_spec. destruct (due _ _); [intros [= <- <-]; auto|].
  destruct (due _ _); [|intros [= <- <-]; auto]. destruct (backoff_can_retry _); [|intros [= <- <-]; auto].
  intros H.
  pose proof (v_flight_resend E (rearm E now (arm now e))) as K. rewrite H in K. cbn [snd] in K.
  rewrite (vs_cfg _ _ K), (vs_connect _ _ K), <- Hc. split; reflexivity.
Qed.
Lemma arm_connect now e : en_connect (arm now e) =
  match en_connect e with Unarmed => Armed (now + c_hs_timeout (en_cfg e)) | t => t end.
Proof.
  unfold arm. destruct (en_connect e) eqn:Hc; cbn [timeout_is_unarmed]; ecbn; destruct (timeout_is_unarmed (en_flight e)); ecbn; auto.
Qed.

(** The time of the first [handle_timeout] of a history. *)
Fixpoint first_tick (h : list (Call * Reply)) : option N :=
  match h with
  | [] => None
  | (Tick now, _) :: _ => Some now
  | _ :: h => first_tick h
  end.
Lemma first_tick_app h h' : first_tick (h ++ h') =
  match first_tick h with Some t => Some t | None => first_tick h' end.
Proof. induction h as [|[c r] h IH]; [reflexivity|]. destruct c; cbn [app first_tick]; auto. Qed.

Lemma draw_random_eng E now s : exists o, end_eng (draw_random E now (set_end_now now s)) = set_en_orc o (end_eng s).
Proof.
  destruct s as [c|c]; cbn [set_end_now draw_random]; ecbn.
  - destruct (cl_random c); cbn [end_eng]; ecbn; [exists (en_orc (cl_eng c)); destruct (cl_eng c); reflexivity|eexists; reflexivity].
  - destruct (sv_random c); cbn [end_eng]; ecbn; [exists (en_orc (sv_eng c)); destruct (sv_eng c); reflexivity|eexists; reflexivity].
Qed.

Lemma tick_connect_end E now s r s' : end12_call E (Tick now) s = (r, s') ->
  en_cfg (end_eng s') = en_cfg (end_eng s) /\
  (en_connect (end_eng s') = Disabled \/
   en_connect (end_eng s') = match en_connect (end_eng s) with
                             | Unarmed => Armed (now + c_hs_timeout (en_cfg (end_eng s)))
                             | t => t
                             end).
Proof.
  rewrite tick_unfold. destruct (draw_random_eng E now s) as [o Ho].
  destruct (eng12_handle_timeout E now _) as [x e] eqn:He. apply tick_connect in He.
  rewrite Ho, arm_connect in He. ecbn_in He. destruct He as [H1 H2].
  destruct x as [u|x|x].
  - intros H. apply cn_call in H; [|discriminate]. rewrite end_eng_set_eng in H. destruct H as [H3 [H4|H4]];
      rewrite H3, H1, H4, ?H2; auto.
  - intros [= <- <-]. rewrite end_eng_set_eng, H1, H2. auto.
  - intros [= <- <-]. rewrite end_eng_set_eng, H1, H2. auto.
Qed.

Lemma reach_connect E cfg auth h s : reach12 E cfg auth h s ->
  en_cfg (end_eng s) = cfg /\
  (en_connect (end_eng s) = Disabled \/
   en_connect (end_eng s) = match first_tick h with
                            | Some t => Armed (t + c_hs_timeout cfg)
                            | None => Unarmed
                            end).
Proof.
  intros (s0 & H0 & H). induction H as [|h s c r s' H IH NP C].
  - induction H0 as [now|s0 H0 IH|c0 H0 IH]; cbn; [auto|exact IH|exact IH].
  - destruct IH as [IH1 IH2]. rewrite first_tick_app.
    destruct (match c with Tick _ => true | _ => false end) eqn:Ht.
    + destruct c as [| |now| |]; try discriminate. apply tick_connect_end in C. destruct C as [C1 C2].
      split; [congruence|]. cbn [first_tick]. destruct C2 as [->| ->]; [auto|]. rewrite IH1.
      destruct IH2 as [->| ->]; [auto|]. destruct (first_tick h); auto.
    + assert (NT : forall now, c <> Tick now) by (intros now ->; discriminate).
      apply cn_call in C; [|exact NT]. destruct C as [C1 C2]. split; [congruence|].
      replace (first_tick [(c, r)]) with (@None N) by (destruct c; try reflexivity; discriminate).
      replace (match first_tick h with Some t => Some t | None => None end) with (first_tick h)
        by (destruct (first_tick h); reflexivity).
      destruct C2 as [->| ->]; auto.
Qed.

(** ** Closed without having finished: only by [close] *)

Definition end_closed (s : End12) : Prop :=
  match s with Cl c => cl_state c = CS_Closed | Sv s => sv_state s = SS_Closed end.

(** [rets P m]: whatever [m] returns satisfies [P]. *)
Definition rets {S A} (P : A -> Prop) (m : M S A) : Prop :=
  forall s, match fst (m s) with Ok a => P a | _ => True end.
Lemma rets_ret {S A} (P : A -> Prop) a : P a -> @rets S A P (ret a).
Proof. intros H s. exact H. Qed.
Lemma rets_fail {S A} (P : A -> Prop) e : @rets S A P (fail e).
Proof. intros s. exact I. Qed.
Lemma rets_panic {S A} (P : A -> Prop) n : @rets S A P (panic n).
Proof. intros s. exact I. Qed.
Lemma rets_bind {S A B} (P : B -> Prop) (m : M S A) (k : A -> M S B) :
  (forall a, rets P (k a)) -> rets P (bind m k).
Proof. intros H s. unfold bind. destruct (m s) as [[a|e|n] s']; cbn; auto. apply H. Qed.
Ltac rets leaf := repeat lazymatch goal with
  | |- rets _ (bind _ _) => apply rets_bind; intro
  | |- rets _ (ret _) => apply rets_ret
  | |- rets _ (fail _) => apply rets_fail
  | |- rets _ (panic _) => apply rets_panic
  | |- rets _ (match ?x with _ => _ end) => destruct x
  | |- rets _ (if ?x then _ else _) => destruct x
  | |- _ => leaf
  end.

Lemma c_step_closed E st : rets (fun st' => st' = CS_Closed -> st = CS_Closed \/ st = CS_AwaitApplicationData) (c_step E st).
Proof.
  destruct st; unfold_c_step; rets ltac:(idtac);
    repeat (match goal with |- (if ?b then _ else _) = _ -> _ => destruct b | |- (match ?b with _ => _ end) = _ -> _ => destruct b end);
    intro; try discriminate; auto.
Qed.
Lemma s_step_closed E st : rets (fun st' => st' = SS_Closed -> st = SS_Closed \/ st = SS_AwaitApplicationData) (s_step E st).
Proof.
  destruct st; unfold_s_step; rets ltac:(idtac);
    repeat (match goal with |- (if ?b then _ else _) = _ -> _ => destruct b | |- (match ?b with _ => _ end) = _ -> _ => destruct b end);
    intro; try discriminate; auto.
Qed.

Lemma run_step_closed_c E c r c' : c_step E (cl_state c) c = (r, c') ->
  match r with Ok CS_Closed => cl_state c = CS_Closed \/ cl_state c = CS_AwaitApplicationData | _ => True end.
Proof.
  intros H. pose proof (c_step_closed E (cl_state c) c) as K. rewrite H in K. cbn [fst] in K.
  destruct r as [st| |]; try exact I. destruct st; auto.
Qed.
Lemma run_step_closed_s E c r c' : s_step E (sv_state c) c = (r, c') ->
  match r with Ok SS_Closed => sv_state c = SS_Closed \/ sv_state c = SS_AwaitApplicationData | _ => True end.
Proof.
  intros H. pose proof (s_step_closed E (sv_state c) c) as K. rewrite H in K. cbn [fst] in K.
  destruct r as [st| |]; try exact I. destruct st; auto.
Qed.


Definition Rrel (a b : Eng12) : Prop := en_release a = true -> en_release b = true.
Lemma Rrel_po : preorder Rrel.
Proof. split; unfold Rrel; auto. Qed.
Lemma rel_frame E : eng_frame E Rrel.
Proof. frame_all ltac:(first [exact Rrel_po | intros; exact (fun H => H) | intros; intro; reflexivity]). Qed.

(** A closed endpoint is past the handshake. *)
Definition cl_over (c : Client12) : Prop := cl_state c = CS_Closed -> en_release (cl_eng c) = true.
Definition sv_over (c : Server12) : Prop := sv_state c = SS_Closed -> en_release (sv_eng c) = true.

Lemma c_progress_over E n : pres (fun a b => inv_client E a -> cl_over a -> cl_over b) (c_progress E n).
Proof.
  induction n as [|n IH]; intros c I O; [exact O|].
  cbn [c_progress]. apply (wp_bind get _ (fun _ c' => cl_over c')), wp_get, wp_bind, wp_intro.
  intros r c' H. pose proof (run_step_closed_c _ _ _ _ H) as RC.
  pose proof (inv_c_step E (cl_state c) c I) as P. unfold wp in P. rewrite H in P. cbn [fst snd] in P.
  pose proof (c_step_state E (cl_state c) c) as S. cbv beta in S. rewrite H in S. cbn [snd] in S.
  pose proof (lf_c_step E Rrel (rel_frame E) (cl_state c) c) as R. unfold History12Facts.RC in R. rewrite H in R. cbn [snd] in R.
  assert (O' : cl_over c') by (intro Hc; apply R, O; congruence).
  destruct r as [st|x|x]; [|exact O'..].
  destruct (cstate12_eqb (cl_state c) st) eqn:Heq; [apply wp_ret; exact O'|].
  apply wp_bind, wp_modify.
  apply (wp_pres (fun a b => inv_client E a -> cl_over a -> cl_over b) _ _ IH).
  - unfold inv_client. ecbn. cbn [post] in P. eapply inv_same; [| |exact P]; [apply Vsame_Tsame, Vsame_refl|repeat split].
  - intro Hc. ecbn_in Hc. subst st. destruct RC as [RC|RC].
    + apply R, O, RC.
    + ecbn. apply R. destruct I as [[T _] _]. rewrite RC in T. apply T.
Qed.
Lemma s_progress_over E n : pres (fun a b => inv_server E a -> sv_over a -> sv_over b) (s_progress E n).
Proof.
  induction n as [|n IH]; intros c I O; [exact O|].
  cbn [s_progress]. apply (wp_bind get _ (fun _ c' => sv_over c')), wp_get, wp_bind, wp_intro.
  intros r c' H. pose proof (run_step_closed_s _ _ _ _ H) as RC.
  pose proof (inv_s_step E (sv_state c) c I) as P. unfold wp in P. rewrite H in P. cbn [fst snd] in P.
  pose proof (s_step_state E (sv_state c) c) as S. cbv beta in S. rewrite H in S. cbn [snd] in S.
  pose proof (lf_s_step E Rrel (rel_frame E) (sv_state c) c) as R. unfold History12Facts.RS in R. rewrite H in R. cbn [snd] in R.
  assert (O' : sv_over c') by (intro Hc; apply R, O; congruence).
  destruct r as [st|x|x]; [|exact O'..].
  destruct (sstate12_eqb (sv_state c) st) eqn:Heq; [apply wp_ret; exact O'|].
  apply wp_bind, wp_modify.
  apply (wp_pres (fun a b => inv_server E a -> sv_over a -> sv_over b) _ _ IH).
  - unfold inv_server. ecbn. cbn [post_s] in P. eapply inv_s_same; [| |exact P]; [apply Vsame_Tsame, Vsame_refl|repeat split].
  - intro Hc. ecbn_in Hc. subst st. destruct RC as [RC|RC].
    + apply R, O, RC.
    + ecbn. apply R. destruct I as [[T _] _]. rewrite RC in T. apply T.
Qed.

Definition end_over (s : End12) : Prop := end_closed s -> end_release s = true.

Lemma packet_over E p s r s' : inv_end E s -> end_over s -> end12_call E (Packet p) s = (r, s') -> end_over s'.
Proof.
  intros I O. destruct s as [c|c]; cbn [end12_call client12_call server12_call].
  - intros H. enough (W : wp (client12_handle_packet E p) (fun _ c' => cl_over c') c).
    { unfold no_output, bind, wp in *. destruct (client12_handle_packet E p c) as [[?|?|?] c']; injection H as <- <-; exact W. }
    apply (lf_public (fun a b => inv_client E a -> cl_over a -> cl_over b)); [|exact I|exact O].
    clear c I O H. intros c I O. apply (wp_bind _ _ (fun _ c' => cl_over c')), wp_intro.
    intros x c1 H. assert (V : Vsame (cl_eng c) (cl_eng c1) /\ cl_state c1 = cl_state c).
    { unfold ceng, zoom in H. pose proof (v_parse E p (cl_eng c)) as V. destruct (eng12_parse_packet E p (cl_eng c)).
      injection H as <- <-. split; [exact V|reflexivity]. }
    assert (I1 : inv_client E c1).
    { pose proof (inv_eng_same E _ (v_parse E p) c I) as K. rewrite H in K. exact K. }
    assert (O1 : cl_over c1) by (intro Hc; rewrite (vs_release _ _ (proj1 V)); apply O; rewrite <- Hc; symmetry; apply V).
    destruct x; [|exact O1..].
    apply (wp_pres (fun a b => inv_client E a -> cl_over a -> cl_over b) _ _ (c_progress_over E 40) I1 O1).
  - intros H. enough (W : wp (server12_handle_packet E p) (fun _ c' => sv_over c') c).
    { unfold no_output, bind, wp in *. destruct (server12_handle_packet E p c) as [[?|?|?] c']; injection H as <- <-; exact W. }
    apply (lf_public (fun a b => inv_server E a -> sv_over a -> sv_over b)); [|exact I|exact O].
    clear c I O H. intros c I O. apply (wp_bind _ _ (fun _ c' => sv_over c')), wp_intro.
    intros x c1 H. assert (V : Vsame (sv_eng c) (sv_eng c1) /\ sv_state c1 = sv_state c).
    { unfold seng, zoom in H. pose proof (v_parse E p (sv_eng c)) as V. destruct (eng12_parse_packet E p (sv_eng c)).
      injection H as <- <-. split; [exact V|reflexivity]. }
    assert (I1 : inv_server E c1).
    { pose proof (inv_s_eng_same E _ (v_parse E p) c I) as K. rewrite H in K. exact K. }
    assert (O1 : sv_over c1) by (intro Hc; rewrite (vs_release _ _ (proj1 V)); apply O; rewrite <- Hc; symmetry; apply V).
    destruct x; [|exact O1..].
    apply (wp_pres (fun a b => inv_server E a -> sv_over a -> sv_over b) _ _ (s_progress_over E 40) I1 O1).
Qed.

Lemma end_rel_tick E now e r e' : eng12_handle_timeout E now e = (r, e') -> en_release e' = en_release e.
Proof.
  intros H. pose proof (fr_handle_timeout E (fun a b => en_release b = en_release a)
    ltac:(split; congruence) ltac:(reflexivity) ltac:(reflexivity) ltac:(reflexivity) ltac:(reflexivity)
    ltac:(reflexivity) ltac:(reflexivity) ltac:(reflexivity) now e) as K.
  rewrite H in K. exact K.
Qed.

(** The endpoint on which [handle_timeout] continues, once the timers ran. *)
Lemma tick_prepared E now s r e : inv_end E s ->
  eng12_handle_timeout E now (end_eng (draw_random E now (set_end_now now s))) = (r, e) ->
  let s1 := set_end_eng e (draw_random E now (set_end_now now s)) in
  inv_end E s1 /\ (end_closed s1 <-> end_closed s) /\ end_release s1 = end_release s.
Proof.
  intros I H. cbv zeta. destruct (draw_random_eng E now s) as [o Ho].
  assert (R : en_release e = en_release (end_eng s)) by (apply end_rel_tick in H; rewrite Ho in H; exact H).
  assert (T : Tsame (end_eng (draw_random E now (set_end_now now s))) e).
  { pose proof (v_handle_timeout E now (end_eng (draw_random E now (set_end_now now s)))) as T. rewrite H in T. exact T. }
  split; [|split; [|destruct s; cbn [set_end_now draw_random]; ecbn; destruct (_ : option bytes); exact R]].
  - destruct s as [c|c]; cbn [set_end_now draw_random set_end_eng inv_end end_eng] in *.
    + ecbn. ecbn_in H. ecbn_in T. destruct (cl_random c) eqn:Hr; cbn [set_end_eng inv_end end_eng] in *.
      * unfold inv_client in *. ecbn. eapply inv_same; [| |exact I]; [exact T|repeat split].
      * change (inv_client E (set_cl_random (Some (be 4 (now / sec) ++ e_rand E (en_orc (cl_eng c)) 28))
          (set_cl_eng e (set_cl_now now c)))). apply inv_set_random; [exact Hr|].
        unfold inv_client in *. ecbn. eapply inv_same; [| |exact I]; [|repeat split].
        eapply Tsame_trans; [|exact T]. apply Vsame_Tsame. constructor; reflexivity.
    + ecbn. ecbn_in H. ecbn_in T. destruct (sv_random c) eqn:Hr; cbn [set_end_eng inv_end end_eng] in *.
      * unfold inv_server in *. ecbn. eapply inv_s_same; [| |exact I]; [exact T|repeat split].
      * unfold inv_server in *. ecbn. eapply inv_s_same; [| |exact I]; [|repeat split].
        eapply Tsame_trans; [|exact T]. apply Vsame_Tsame. constructor; reflexivity.
  - destruct s as [c|c]; cbn [set_end_now draw_random]; ecbn; destruct (_ : option bytes); cbn [set_end_eng end_closed]; ecbn; tauto.
Qed.

Lemma call_over E c s r s' : c <> Close -> inv_end E s -> end_over s -> end12_call E c s = (r, s') -> end_over s'.
Proof.
  intros NC I O H. destruct c as [p|cap|now|d|]; [eapply packet_over; eassumption|..|congruence].
  - rewrite poll_unfold in H. assert (K : forall l, end_over (set_end_events l s)).
    { intro l. unfold end_over, end_release in *. destruct s; exact O. }
    destruct (end_events s) as [|[| |m p] l]; try (injection H as <- <-; apply K).
    pose proof (v_poll cap (end_now s) (end_eng s)) as V. destruct (eng12_poll_output cap _ _) as [x e].
    injection H as <- <-. cbn [snd] in V. unfold end_over, end_release in *. rewrite end_eng_set_eng, (vs_release _ _ V).
    destruct s; exact O.
  - rewrite tick_unfold in H. destruct (eng12_handle_timeout E now _) as [x e] eqn:He.
    destruct (tick_prepared E now s x e I He) as (I1 & C1 & R1).
    assert (O1 : end_over (set_end_eng e (draw_random E now (set_end_now now s)))) by (intro Hc; rewrite R1; apply O, C1, Hc).
    destruct x as [u|x|x]; [|injection H as <- <-; exact O1..]. eapply packet_over; eassumption.
  - assert (R : Rrel (end_eng s) (end_eng s')) by (eapply (lf_end_call E Rrel (rel_frame E)); exact H).
    intros Hc. apply R, O. destruct s as [x|x]; cbn [end12_call client12_call server12_call] in H;
      unfold no_output, client12_send, server12_send, bind, get, ret, fail, modify, ceng, seng, zoom in H.
    + destruct (cl_state x) eqn:Hs; try (injection H as <- <-; cbn [end_closed] in *; ecbn_in Hc; congruence).
      destruct (create_record E CT_APP 1 false d (cl_eng x)) as [[?|?|?] ?]; injection H as <- <-; cbn [end_closed] in *; ecbn_in Hc; congruence.
    + destruct (sv_state x) eqn:Hs; try (injection H as <- <-; cbn [end_closed] in *; ecbn_in Hc; congruence).
      destruct (create_record E CT_APP 1 false d (sv_eng x)) as [[?|?|?] ?]; injection H as <- <-; cbn [end_closed] in *; ecbn_in Hc; congruence.
Qed.

Lemma reach_over E cfg auth h s : reach12 E cfg auth h s -> ~ In Close (map fst h) -> end_over s.
Proof.
  intros (s0 & H0 & H) NC. assert (I0 := start_inv E _ _ _ H0).
  assert (Hr : forall h' s', history E s0 h' s' -> reach12 E cfg auth h' s') by (intros; exists s0; auto).
  induction H as [|h s c r s' H IH NP C].
  - intros Hc. destruct H0; cbn in Hc; discriminate.
  - rewrite map_app in NC. eapply call_over; [| | |exact C].
    + intros ->. apply NC. apply in_or_app. right. left. reflexivity.
    + apply (reach_end_inv E cfg auth h). apply Hr, H.
    + apply IH. intro Hi. apply NC, in_or_app. auto.
Qed.

(** The handshake timers run until the handshake finished or the connection was closed. *)
Lemma reach_running E cfg auth h s : reach12 E cfg auth h s -> ~ In Close (map fst h) -> end_release s = false ->
  en_connect (end_eng s) <> Disabled /\ en_flight (end_eng s) <> Disabled.
Proof.
  intros H NC R. pose proof (reach_over _ _ _ _ _ H NC) as O. pose proof (reach_end_inv _ _ _ _ _ H) as I.
  destruct s as [c|c]; unfold end_over, end_release in *; cbn [inv_end end_closed end_eng] in *; destruct I as [[T _] _].
  - destruct (cl_state c); cbn [timers_c] in T; first [split; apply T | destruct T; congruence | specialize (O eq_refl); congruence].
  - destruct (sv_state c); cbn [timers_s] in T; first [split; apply T | destruct T; congruence | specialize (O eq_refl); congruence].
Qed.
Lemma reach_stopped E cfg auth h s : reach12 E cfg auth h s -> end_release s = true \/ end_closed s ->
  en_connect (end_eng s) = Disabled /\ en_flight (end_eng s) = Disabled.
Proof.
  intros H R. pose proof (reach_end_inv _ _ _ _ _ H) as I.
  destruct s as [c|c]; unfold end_release in *; cbn [inv_end end_closed end_eng] in *; destruct I as [[T _] _].
  - destruct (cl_state c); cbn [timers_c] in T; try (destruct R as [R|R]; [destruct T as (_ & _ & T); congruence|discriminate]); [apply T|exact T].
  - destruct (sv_state c); cbn [timers_s] in T; try (destruct R as [R|R]; [destruct T as (_ & _ & T); congruence|discriminate]); [apply T|exact T].
Qed.

(** [Connected] was reported or is waiting to be polled. *)
Definition was_connected (h : list (Call * Reply)) (s : End12) : Prop :=
  In OConnected (outputs h ++ pending s).
Lemma was_connected_release E cfg auth h s : reach12 E cfg auth h s ->
  (was_connected h s <-> end_release s = true).
Proof.
  intros H. pose proof (reach_trace E cfg auth h s H) as T. unfold event_trace in T. unfold was_connected.
  split.
  - intros Hc. destruct (end_release s); [reflexivity|]. rewrite Forall_forall in T.
    destruct (T OConnected) as (x & Hx & _); [|discriminate].
    apply in_app_or in Hc. apply in_or_app. destruct Hc as [Hc|Hc]; [left; apply filter_In; auto|right].
    unfold pending in Hc. apply in_app_or in Hc. destruct Hc as [Hc|Hc]; [exact Hc|exfalso].
    unfold eng_pending in Hc. apply in_app_or in Hc. destruct Hc as [Hc|Hc].
    + destruct (en_release _); [|destruct Hc]. apply in_map_iff in Hc. destruct Hc as (? & Hc & _). discriminate.
    + apply in_app_or in Hc. destruct Hc as [Hc|Hc].
      * apply in_map_iff in Hc. destruct Hc as (? & Hc & _). discriminate.
      * destruct (_ && _); [destruct Hc as [Hc|[]]; discriminate|destruct Hc].
  - intros R. rewrite R in T. destruct T as (pc & kl & T & _).
    assert (K : In OConnected (events_of h ++ map (event_value (end_certs s)) (end_events s)))
      by (rewrite T; apply in_or_app; right; left; reflexivity).
    apply in_app_or in K. apply in_or_app. destruct K as [K|K].
    + left. apply filter_In in K. apply K.
    + right. unfold pending. apply in_or_app. left. exact K.
Qed.
