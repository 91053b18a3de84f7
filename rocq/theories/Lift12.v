(** Invariants of DTLS 1.2 endpoints that mention the datagrams received and the
    outputs returned so far, lifted from the engine and the state steps to
    histories. *)
From Verif Require Import Prelude PreludeFacts Types Codec Codec12 Record12 Monad MonadFacts Timer Env
  Config Aead Prf Window Context12 Engine12 Client12 Server12 Engine12Frame Send12Proofs History12
  History12Facts EndFrame12 Queue12Proofs View12 Poll12Proofs Timer12Proofs Tx12Proofs
  ClientInv12 ClientStep12 ServerInv12 ServerStep12 Events12.

(** The datagrams handed to the endpoint in a history. *)
Definition datagrams_of (x : Call) : list bytes := match x with Packet p => [p] | _ => [] end.
Definition received (h : list (Call * Reply)) : list bytes := flat_map (fun x => datagrams_of (fst x)) h.
Definition output_in (r : Reply) : list Output := match r with Ok (Some o) => [o] | _ => [] end.
(** The outputs that do not come from the engine. *)
Definition is_event (o : Output) : Prop :=
  match o with OConnected | OPeerCert _ | OKeying _ _ => True | _ => False end.


Section ClientLift.
Variable E : Env.
Variable J : list bytes -> list Output -> CState12 -> Eng12 -> Prop.

Record c_lift : Prop := {
  cli_step : forall pk os st c, inv_c E st c -> J pk os st (cl_eng c) ->
    wp (c_step E st) (fun r c' => match r with Ok st' => J pk os st' (cl_eng c') | _ => J pk os st (cl_eng c') end) c;
  cli_parse : forall p pk os st e, In p pk -> J pk os st e -> wp (eng12_parse_packet E p) (fun _ e' => J pk os st e') e;
  cli_recv : forall p pk os st e, J pk os st e -> J (pk ++ [p]) os st e;
  cli_timeout : forall now pk os st e, J pk os st e -> wp (eng12_handle_timeout E now) (fun _ e' => J pk os st e') e;
  cli_random : forall now pk os st e, J pk os st e -> wp (random_with_time E now) (fun _ e' => J pk os st e') e;
  cli_send : forall d pk os e, en_release e = true -> J pk os CS_AwaitApplicationData e ->
    wp (create_record E CT_APP 1 false d) (fun _ e' => J pk os CS_AwaitApplicationData e') e;
  cli_alert : forall pk os e, en_release e = true -> J pk os CS_AwaitApplicationData e ->
    wp (create_record E CT_ALERT 1 false [1; 0]) (fun r e' => J pk os CS_AwaitApplicationData e' /\
      match r with Ok _ => J pk os CS_Closed e' | _ => True end) e;
  cli_abort : forall pk os st e, J pk os st e -> wp eng12_abort (fun _ e' => J pk os CS_Closed e') e;
  cli_poll : forall cap now pk os st e, J pk os st e ->
    wp (eng12_poll_output cap now) (fun r e' => J pk (os ++ match r with Ok o => [o] | _ => [] end) st e') e;
  cli_event : forall o pk os st e, is_event o -> J pk os st e -> J pk (os ++ [o]) st e }.

Hypothesis L : c_lift.

Lemma c_lift_progress n : forall pk os c, inv_client E c -> J pk os (cl_state c) (cl_eng c) ->
  wp (c_progress E n) (fun _ c' => J pk os (cl_state c') (cl_eng c')) c.
Proof.
  induction n as [|n IH]; intros pk os c I H; cbn [c_progress]; [apply wp_panic; exact H|].
  apply wp_bind, wp_get, wp_bind, wp_intro. intros r c' Hr.
  assert (Hs : cl_state c' = cl_state c) by (pose proof (c_step_state E (cl_state c) c) as S; rewrite Hr in S; exact S).
  pose proof (wp_run _ _ _ _ _ Hr (inv_c_step E _ _ I)) as P.
  pose proof (wp_run _ _ _ _ _ Hr (cli_step L pk os _ _ I H)) as H'. cbv beta in H'.
  destruct r as [st|x|x]; cbn [post] in P; [|rewrite Hs; exact H'..].
  destruct (cstate12_eqb (cl_state c) st) eqn:Heq.
  - unfold cstate12_eqb in Heq. destruct (cstate12_eq_dec (cl_state c) st); [|discriminate]. apply wp_ret. subst st. rewrite Hs. exact H'.
  - apply wp_bind, wp_modify. apply IH; [|exact H'].
    unfold inv_client. ecbn. eapply inv_same; [| |exact P]; [apply Vsame_Tsame, Vsame_refl|repeat split].
Qed.

Lemma c_lift_eng {A} (m : M Eng12 A) pk os st c (P : Eng12 -> Prop) :
  (J pk os st (cl_eng c) -> wp m (fun _ e => P e) (cl_eng c)) ->
  J pk os st (cl_eng c) ->
  wp (ceng m) (fun _ c' => P (cl_eng c') /\ (cl_state c' = cl_state c /\ cl_random c' = cl_random c)) c.
Proof.
  intros W H. apply wp_zoom. eapply wp_mono; [apply W, H|]. cbv beta. intros r e K. split; [exact K|split; reflexivity].
Qed.

Lemma c_lift_call cl pk os c : not_poll cl -> inv_client E c -> J pk os (cl_state c) (cl_eng c) ->
  wp (client12_call E cl) (fun _ c' => J (pk ++ datagrams_of cl) os (cl_state c') (cl_eng c')) c.
Proof.
  intros NP I H.
  assert (Hpub : forall (m : M Client12 unit) x P, wp m (fun _ => P) x -> wp (public m) (fun _ => P) x).
  { intros m x P. unfold wp, public. destruct (m x) as [[u|e|n] x']; auto. destruct e; auto. }
  assert (Hno : forall (m : M Client12 unit) x P, wp m (fun _ => P) x -> wp (no_output m) (fun _ => P) x).
  { intros m x P W. unfold no_output. apply wp_bind. eapply wp_mono; [exact W|]. cbv beta. intros r c' K.
    destruct r; [apply wp_ret|..]; exact K. }
  assert (Hpk : forall c', J pk os (cl_state c') (cl_eng c') -> J (pk ++ []) os (cl_state c') (cl_eng c')).
  { intros c' K. rewrite app_nil_r. exact K. }
  destruct cl as [pkt|cap|now|d|]; try destruct NP; cbn [client12_call datagrams_of].
  - apply Hno, Hpub. apply wp_bind, wp_intro. intros r c' Hr.
    assert (I' : inv_client E c') by (pose proof (inv_eng_same E _ (v_parse E pkt) c I) as K; rewrite Hr in K; exact K).
    pose proof (wp_run _ _ _ _ _ Hr (c_lift_eng (eng12_parse_packet E pkt) (pk ++ [pkt]) os (cl_state c) c
      (fun e => J (pk ++ [pkt]) os (cl_state c) e)
      (cli_parse L pkt (pk ++ [pkt]) os _ _ ltac:(apply in_or_app; right; left; reflexivity)) (cli_recv L _ _ _ _ _ H))) as (H' & S & _).
    cbv beta in H'. rewrite <- S in H'. destruct r as [u|x|x]; [|exact H'..].
    apply c_lift_progress; assumption.
  - apply Hno. eapply wp_mono; [|intros r c'; apply Hpk]. unfold client12_handle_timeout. apply wp_bind, wp_modify, wp_bind, wp_get, wp_bind.
    assert (Hgo : forall x, inv_client E x -> J pk os (cl_state x) (cl_eng x) ->
      wp (ceng (eng12_handle_timeout E now) ;;; public (c_make_progress E)) (fun _ c' => J pk os (cl_state c') (cl_eng c')) x).
    { intros x Ix Jx. apply wp_bind, wp_intro. intros r c' Hr.
      assert (I' : inv_client E c') by (pose proof (inv_c_timeout E now x Ix) as K; rewrite Hr in K; exact K).
      pose proof (wp_run _ _ _ _ _ Hr (c_lift_eng _ _ _ _ x _ (cli_timeout L now _ _ _ _) Jx)) as (H' & S & _).
      cbv beta in H'. rewrite <- S in H'. destruct r; [|exact H'..]. apply Hpub, c_lift_progress; assumption. }
    assert (I1 : inv_client E (set_cl_now now c)).
    { unfold inv_client. ecbn. eapply inv_same; [| |exact I]; [apply Vsame_Tsame, Vsame_refl|repeat split]. }
    ecbn. destruct (cl_random c) as [rb|] eqn:Hrd.
    + apply wp_ret, Hgo; assumption.
    + apply wp_bind, wp_intro. intros r c' Hr.
      assert (I' : inv_client E c') by (pose proof (inv_eng_same E _ (v_random_with_time E now) _ I1) as K; rewrite Hr in K; exact K).
      pose proof (wp_run _ _ _ _ _ Hr (c_lift_eng _ _ _ _ (set_cl_now now c) _ (cli_random L now _ _ _ _) H)) as (H' & S & Rd). ecbn_in S. ecbn_in Rd.
      cbv beta in H'. rewrite <- S in H'. destruct r; [|exact H'..]. apply wp_modify, Hgo; [|exact H'].
      apply inv_set_random; [|exact I']. rewrite Rd. exact Hrd.
  - apply Hno. eapply wp_mono; [|intros r c'; apply Hpk]. unfold client12_send. apply wp_bind, wp_get.
    destruct (cl_state c) eqn:Hst.
    all: try (apply wp_modify; ecbn; rewrite Hst; exact H).
    + assert (HR : en_release (cl_eng c) = true) by (unfold inv_client in I; rewrite Hst in I; apply I).
      eapply wp_mono; [apply (c_lift_eng _ _ _ _ c _ (cli_send L d _ _ _ HR) H)|].
      cbv beta. intros r c' (K & S & _). rewrite S, Hst. exact K.
    + apply wp_fail. rewrite Hst. exact H.
  - apply Hno. eapply wp_mono; [|intros r c'; apply Hpk]. unfold client12_close. apply wp_bind, wp_get.
    assert (HA : wp (ceng eng12_abort ;;; modify (set_cl_state CS_Closed)) (fun _ c' => J pk os (cl_state c') (cl_eng c')) c).
    { apply wp_bind. unfold ceng. apply wp_zoom. unfold eng12_abort. apply wp_modify, wp_modify. ecbn.
      pose proof (cli_abort L _ _ _ _ H) as K. unfold eng12_abort in K. exact K. }
    destruct (cl_state c) eqn:Hst; try exact HA.
    + assert (HR : en_release (cl_eng c) = true) by (unfold inv_client in I; rewrite Hst in I; apply I).
      apply wp_bind. unfold ceng. apply wp_zoom. eapply wp_mono; [apply (cli_alert L _ _ _ HR H)|].
      cbv beta. intros r e (K1 & K2). destruct r; [apply wp_modify; exact K2|ecbn; rewrite Hst; exact K1..].
    + apply wp_ret. rewrite Hst. exact H.
Qed.
End ClientLift.

Section ServerLift.
Variable E : Env.
Variable J : list bytes -> list Output -> SState12 -> Eng12 -> Prop.

Record s_lift : Prop := {
  sl_step : forall pk os st c, inv_s E st c -> J pk os st (sv_eng c) ->
    wp (s_step E st) (fun r c' => match r with Ok st' => J pk os st' (sv_eng c') | _ => J pk os st (sv_eng c') end) c;
  sl_parse : forall p pk os st e, In p pk -> J pk os st e -> wp (eng12_parse_packet E p) (fun _ e' => J pk os st e') e;
  sl_recv : forall p pk os st e, J pk os st e -> J (pk ++ [p]) os st e;
  sl_timeout : forall now pk os st e, J pk os st e -> wp (eng12_handle_timeout E now) (fun _ e' => J pk os st e') e;
  sl_random : forall now pk os st e, J pk os st e -> wp (random_with_time E now) (fun _ e' => J pk os st e') e;
  sl_send : forall d pk os e, en_release e = true -> J pk os SS_AwaitApplicationData e ->
    wp (create_record E CT_APP 1 false d) (fun _ e' => J pk os SS_AwaitApplicationData e') e;
  sl_alert : forall pk os e, en_release e = true -> J pk os SS_AwaitApplicationData e ->
    wp (create_record E CT_ALERT 1 false [1; 0]) (fun r e' => J pk os SS_AwaitApplicationData e' /\
      match r with Ok _ => J pk os SS_Closed e' | _ => True end) e;
  sl_abort : forall pk os st e, J pk os st e -> wp eng12_abort (fun _ e' => J pk os SS_Closed e') e;
  sl_poll : forall cap now pk os st e, J pk os st e ->
    wp (eng12_poll_output cap now) (fun r e' => J pk (os ++ match r with Ok o => [o] | _ => [] end) st e') e;
  sl_event : forall o pk os st e, is_event o -> J pk os st e -> J pk (os ++ [o]) st e }.

Hypothesis L : s_lift.

Lemma s_lift_progress n : forall pk os c, inv_server E c -> J pk os (sv_state c) (sv_eng c) ->
  wp (s_progress E n) (fun _ c' => J pk os (sv_state c') (sv_eng c')) c.
Proof.
  induction n as [|n IH]; intros pk os c I H; cbn [s_progress]; [apply wp_panic; exact H|].
  apply wp_bind, wp_get, wp_bind, wp_intro. intros r c' Hr.
  assert (Hs : sv_state c' = sv_state c) by (pose proof (s_step_state E (sv_state c) c) as S; rewrite Hr in S; exact S).
  pose proof (wp_run _ _ _ _ _ Hr (inv_s_step E _ _ I)) as P.
  pose proof (wp_run _ _ _ _ _ Hr (sl_step L pk os _ _ I H)) as H'. cbv beta in H'.
  destruct r as [st|x|x]; cbn [post_s] in P; [|rewrite Hs; exact H'..].
  destruct (sstate12_eqb (sv_state c) st) eqn:Heq.
  - unfold sstate12_eqb in Heq. destruct (sstate12_eq_dec (sv_state c) st); [|discriminate]. apply wp_ret. subst st. rewrite Hs. exact H'.
  - apply wp_bind, wp_modify. apply IH; [|exact H'].
    unfold inv_server. ecbn. eapply inv_s_same; [| |exact P]; [apply Vsame_Tsame, Vsame_refl|repeat split].
Qed.

Lemma s_lift_eng {A} (m : M Eng12 A) pk os st c (P : Eng12 -> Prop) :
  (J pk os st (sv_eng c) -> wp m (fun _ e => P e) (sv_eng c)) ->
  J pk os st (sv_eng c) ->
  wp (seng m) (fun _ c' => P (sv_eng c') /\ (sv_state c' = sv_state c /\ sv_random c' = sv_random c)) c.
Proof.
  intros W H. apply wp_zoom. eapply wp_mono; [apply W, H|]. cbv beta. intros r e K. split; [exact K|split; reflexivity].
Qed.

Lemma s_lift_call cl pk os c : not_poll cl -> inv_server E c -> J pk os (sv_state c) (sv_eng c) ->
  wp (server12_call E cl) (fun _ c' => J (pk ++ datagrams_of cl) os (sv_state c') (sv_eng c')) c.
Proof.
  intros NP I H.
  assert (Hpub : forall (m : M Server12 unit) x P, wp m (fun _ => P) x -> wp (public m) (fun _ => P) x).
  { intros m x P. unfold wp, public. destruct (m x) as [[u|e|n] x']; auto. destruct e; auto. }
  assert (Hno : forall (m : M Server12 unit) x P, wp m (fun _ => P) x -> wp (no_output m) (fun _ => P) x).
  { intros m x P W. unfold no_output. apply wp_bind. eapply wp_mono; [exact W|]. cbv beta. intros r c' K.
    destruct r; [apply wp_ret|..]; exact K. }
  assert (Hpk : forall c', J pk os (sv_state c') (sv_eng c') -> J (pk ++ []) os (sv_state c') (sv_eng c')).
  { intros c' K. rewrite app_nil_r. exact K. }
  destruct cl as [pkt|cap|now|d|]; try destruct NP; cbn [server12_call datagrams_of].
  - apply Hno, Hpub. apply wp_bind, wp_intro. intros r c' Hr.
    assert (I' : inv_server E c') by (pose proof (inv_s_eng_same E _ (v_parse E pkt) c I) as K; rewrite Hr in K; exact K).
    pose proof (wp_run _ _ _ _ _ Hr (s_lift_eng (eng12_parse_packet E pkt) (pk ++ [pkt]) os (sv_state c) c
      (fun e => J (pk ++ [pkt]) os (sv_state c) e)
      (sl_parse L pkt (pk ++ [pkt]) os _ _ ltac:(apply in_or_app; right; left; reflexivity)) (sl_recv L _ _ _ _ _ H))) as (H' & S & _).
    cbv beta in H'. rewrite <- S in H'. destruct r as [u|x|x]; [|exact H'..].
    apply s_lift_progress; assumption.
  - apply Hno. eapply wp_mono; [|intros r c'; apply Hpk]. unfold server12_handle_timeout. apply wp_bind, wp_modify, wp_bind, wp_get, wp_bind.
    assert (Hgo : forall x, inv_server E x -> J pk os (sv_state x) (sv_eng x) ->
      wp (seng (eng12_handle_timeout E now) ;;; public (s_make_progress E)) (fun _ c' => J pk os (sv_state c') (sv_eng c')) x).
    { intros x Ix Jx. apply wp_bind, wp_intro. intros r c' Hr.
      assert (I' : inv_server E c') by (pose proof (inv_s_timeout E now x Ix) as K; rewrite Hr in K; exact K).
      pose proof (wp_run _ _ _ _ _ Hr (s_lift_eng _ _ _ _ x _ (sl_timeout L now _ _ _ _) Jx)) as (H' & S & _).
      cbv beta in H'. rewrite <- S in H'. destruct r; [|exact H'..]. apply Hpub, s_lift_progress; assumption. }
    assert (I1 : inv_server E (set_sv_now now c)).
    { unfold inv_server. ecbn. eapply inv_s_same; [| |exact I]; [apply Vsame_Tsame, Vsame_refl|repeat split]. }
    ecbn. destruct (sv_random c) as [rb|] eqn:Hrd.
    + apply wp_ret, Hgo; assumption.
    + apply wp_bind, wp_intro. intros r c' Hr.
      assert (I' : inv_server E c') by (pose proof (inv_s_eng_same E _ (v_random_with_time E now) _ I1) as K; rewrite Hr in K; exact K).
      pose proof (wp_run _ _ _ _ _ Hr (s_lift_eng _ _ _ _ (set_sv_now now c) _ (sl_random L now _ _ _ _) H)) as (H' & S & Rd). ecbn_in S. ecbn_in Rd.
      cbv beta in H'. rewrite <- S in H'. destruct r; [|exact H'..]. apply wp_modify, Hgo; [|exact H'].
      unfold inv_server in *. ecbn. eapply inv_s_same; [| |exact I']; [apply Vsame_Tsame, Vsame_refl|repeat split].
  - apply Hno. eapply wp_mono; [|intros r c'; apply Hpk]. unfold server12_send. apply wp_bind, wp_get.
    destruct (sv_state c) eqn:Hst.
    all: try (apply wp_modify; ecbn; rewrite Hst; exact H).
    + assert (HR : en_release (sv_eng c) = true) by (unfold inv_server in I; rewrite Hst in I; apply I).
      eapply wp_mono; [apply (s_lift_eng _ _ _ _ c _ (sl_send L d _ _ _ HR) H)|].
      cbv beta. intros r c' (K & S & _). rewrite S, Hst. exact K.
    + apply wp_fail. rewrite Hst. exact H.
  - apply Hno. eapply wp_mono; [|intros r c'; apply Hpk]. unfold server12_close. apply wp_bind, wp_get.
    assert (HA : wp (seng eng12_abort ;;; modify (set_sv_state SS_Closed)) (fun _ c' => J pk os (sv_state c') (sv_eng c')) c).
    { apply wp_bind. unfold seng. apply wp_zoom. unfold eng12_abort. apply wp_modify, wp_modify. ecbn.
      pose proof (sl_abort L _ _ _ _ H) as K. unfold eng12_abort in K. exact K. }
    destruct (sv_state c) eqn:Hst; try exact HA.
    + assert (HR : en_release (sv_eng c) = true) by (unfold inv_server in I; rewrite Hst in I; apply I).
      apply wp_bind. unfold seng. apply wp_zoom. eapply wp_mono; [apply (sl_alert L _ _ _ HR H)|].
      cbv beta. intros r e (K1 & K2). destruct r; [apply wp_modify; exact K2|ecbn; rewrite Hst; exact K1..].
    + apply wp_ret. rewrite Hst. exact H.
Qed.
End ServerLift.

Section EndLift.
Variable E : Env.
Variable Jc : list bytes -> list Output -> CState12 -> Eng12 -> Prop.
Variable Js : list bytes -> list Output -> SState12 -> Eng12 -> Prop.
Hypothesis Lc : c_lift E Jc.
Hypothesis Ls : s_lift E Js.

Definition Jend pk os (s : End12) : Prop :=
  match s with Cl c => Jc pk os (cl_state c) (cl_eng c) | Sv c => Js pk os (sv_state c) (sv_eng c) end.

Lemma nonpoll_no_output c s r s' : not_poll c -> end12_call E c s = (r, s') -> output_in r = [].
Proof.
  intros NP H. destruct s as [x|x]; cbn [end12_call] in H.
  - destruct c; try destruct NP; cbn [client12_call] in H; unfold no_output, bind, ret in H;
      match type of H with context [match ?m x with _ => _ end] => destruct (m x) as [[u|y|y] z] end;
      injection H as <- <-; reflexivity.
  - destruct c; try destruct NP; cbn [server12_call] in H; unfold no_output, bind, ret in H;
      match type of H with context [match ?m x with _ => _ end] => destruct (m x) as [[u|y|y] z] end;
      injection H as <- <-; reflexivity.
Qed.

Lemma lift_call pk os c s r s' : inv_end E s -> end12_call E c s = (r, s') -> Jend pk os s ->
  Jend (pk ++ datagrams_of c) (os ++ output_in r) s'.
Proof.
  intros I H J. destruct (match c with Poll _ => true | _ => false end) eqn:Hc.
  - destruct c; try discriminate. cbn [datagrams_of]. rewrite app_nil_r.
    assert (Hev : forall o, is_event o -> Jend pk (os ++ [o]) s).
    { intros o Ho. destruct s; [apply (cli_event _ _ Lc)|apply (sl_event _ _ Ls)]; assumption. }
    assert (Hset : forall l a b, Jend a b s -> Jend a b (set_end_events l s)) by (intros l a b; destruct s; exact (fun x => x)).
    rewrite poll_unfold in H. destruct (end_events s) as [|[| |m x] l] eqn:He.
    + assert (W : wp (eng12_poll_output cap (end_now s)) (fun r e' => Jend pk (os ++ match r with Ok o => [o] | _ => [] end) (set_end_eng e' s)) (end_eng s)).
      { destruct s; [apply (cli_poll _ _ Lc)|apply (sl_poll _ _ Ls)]; exact J. }
      unfold wp in W. destruct (eng12_poll_output _ _ _) as [r0 e0]. cbn [fst snd] in W. injection H as <- <-.
      destruct r0; exact W.
    + destruct (end_certs s); [|destruct (_ <=? cap)]; injection H as <- <-; cbn [output_in]; rewrite ?app_nil_r; apply Hset;
        try exact J; apply Hev; exact Logic.I.
    + injection H as <- <-. apply Hset, Hev. exact Logic.I.
    + injection H as <- <-. apply Hset, Hev. exact Logic.I.
  - assert (NP : not_poll c) by (destruct c; cbn; auto; discriminate).
    rewrite (nonpoll_no_output c s r s' NP H), app_nil_r.
    destruct s as [x|x]; cbn [end12_call] in H.
    + pose proof (c_lift_call E Jc Lc c pk os x NP I J) as W. unfold wp in W.
      destruct (client12_call E c x) as [r0 x0]. injection H as <- <-. exact W.
    + pose proof (s_lift_call E Js Ls c pk os x NP I J) as W. unfold wp in W.
      destruct (server12_call E c x) as [r0 x0]. injection H as <- <-. exact W.
Qed.

Lemma lift_reach cfg auth h s : (forall s0, start12 E cfg auth s0 -> Jend [] [] s0) ->
  reach12 E cfg auth h s -> Jend (received h) (outputs h) s.
Proof.
  intros J0 HR. pose proof HR as (s0 & H0 & H). specialize (J0 s0 H0).
  clear HR. assert (HI : forall h' s', history E s0 h' s' -> inv_end E s').
  { intros h' s' Hh. eapply reach_end_inv. exists s0. split; [exact H0|exact Hh]. }
  induction H as [|h s c r s' H IH NP C]; [exact J0|].
  unfold received, outputs. rewrite !flat_map_app. cbn [flat_map fst snd]. rewrite !app_nil_r.
  exact (lift_call _ _ c s r s' (HI _ _ H) C IH).
Qed.
End EndLift.
