(** What a reported [Connected] says about the endpoint, DTLS 1.2. *)
From Coq Require Import String.
From Verif Require Import Prelude PreludeFacts CodecProofs Types Codec Codec12 Record12 Env Config Prf Context12
  Monad MonadFacts Timer Window Engine12 Client12 Server12 Engine12Frame History12 History12Facts
  EndFrame12 View12 Evidence12 ClientInv12 ClientStep12 ServerInv12 ServerStep12 Poll12Proofs Events12 Auth12.
Close Scope string_scope.

Section Done.
Variable E : Env.

Lemma in_events h o : is_event o = true -> In o (outputs h) -> In o (events_of h).
Proof. intros H1 H2. apply filter_In. auto. Qed.

Lemma connected_release cfg auth h s : reach12 E cfg auth h s -> In OConnected (outputs h) ->
  end_release s = true.
Proof.
  intros H HC. pose proof (reach_trace E cfg auth h s H) as T. unfold event_trace in T.
  destruct (end_release s); [reflexivity|]. rewrite Forall_forall in T.
  destruct (T OConnected) as (x & Hx & _); [|discriminate Hx].
  apply in_or_app. left. apply in_events; [reflexivity|exact HC].
Qed.

Lemma keying_release cfg auth h s km p : reach12 E cfg auth h s -> In (OKeying km p) (outputs h) ->
  end_release s = true /\ exports E s km p.
Proof.
  intros H HC. pose proof (reach_trace E cfg auth h s H) as T. unfold event_trace in T.
  assert (HI : In (OKeying km p) (events_of h ++ map (event_value (end_certs s)) (end_events s)))
    by (apply in_or_app; left; apply in_events; [reflexivity|exact HC]).
  destruct (end_release s).
  - split; [reflexivity|]. destruct T as (pc & kl & T & T1 & T2 & T3). rewrite T in HI.
    apply in_app_or in HI. destruct HI as [HI|[HI|HI]]; [|discriminate HI|].
    + rewrite Forall_forall in T1. destruct (T1 _ HI) as (x & Hx & _). discriminate.
    + rewrite Forall_forall in T3. destruct (T3 _ HI) as (km' & p' & [= <- <-] & X). exact X.
  - rewrite Forall_forall in T. destruct (T _ HI) as (x & Hx & _). discriminate.
Qed.

Lemma reported_leaf cfg auth h s x : reach12 E cfg auth h s -> In (OPeerCert x) (outputs h) ->
  hd_error (end_certs s) = Some x.
Proof.
  intros H HC. pose proof (reach_trace E cfg auth h s H) as T. unfold event_trace in T.
  assert (HI : In (OPeerCert x) (events_of h ++ map (event_value (end_certs s)) (end_events s)))
    by (apply in_or_app; left; apply in_events; [reflexivity|exact HC]).
  assert (K : forall l, Forall (is_leaf s) l -> In (OPeerCert x) l -> hd_error (end_certs s) = Some x).
  { intros l F Hi. rewrite Forall_forall in F. destruct (F _ Hi) as (y & [= <-] & Y). exact Y. }
  destruct (end_release s).
  - destruct T as (pc & kl & T & T1 & T2 & T3). rewrite T in HI.
    apply in_app_or in HI. destruct HI as [HI|[HI|HI]]; [|discriminate HI|].
    + apply (K _ T1 HI).
    + rewrite Forall_forall in T3. destruct (T3 _ HI) as (km' & p' & X & _). discriminate.
  - apply (K _ T HI).
Qed.

Definition is_connected (o : Output) : bool := match o with OConnected => true | _ => false end.
Definition is_keying (o : Output) : bool := match o with OKeying _ _ => true | _ => false end.

Lemma filter_event f h : (forall o, f o = true -> is_event o = true) ->
  filter f (outputs h) = filter f (events_of h).
Proof.
  intros H. unfold events_of. induction (outputs h) as [|o l IH]; [reflexivity|]. cbn [filter].
  destruct (is_event o) eqn:E1; cbn [filter]; destruct (f o) eqn:E2; rewrite ?IH; auto.
  rewrite (H _ E2) in E1. discriminate.
Qed.
Lemma filter_none {A} (f : A -> bool) l : (forall x, In x l -> f x = false) -> filter f l = [].
Proof.
  induction l as [|a l IH]; intros H; [reflexivity|]. cbn. rewrite (H a (or_introl eq_refl)).
  apply IH. intros x Hx. apply H. right. exact Hx.
Qed.

(** The reported events: certificates, then [Connected], then keying material. *)
Lemma reported_order cfg auth h s : reach12 E cfg auth h s ->
  exists pc rest, events_of h = pc ++ rest /\ (forall o, In o pc -> exists x, o = OPeerCert x) /\
    (rest = [] \/ exists kl, rest = OConnected :: kl /\ (List.length kl <= 1)%nat /\
      forall o, In o kl -> exists km p, o = OKeying km p).
Proof.
  intros H. pose proof (reach_trace E cfg auth h s H) as T. unfold event_trace in T.
  set (q := map _ _) in T. clearbody q.
  assert (L : forall l, Forall (is_leaf s) l -> forall o, In o l -> exists x, o = OPeerCert x).
  { intros l F o Ho. rewrite Forall_forall in F. destruct (F _ Ho) as (x & -> & _). eauto. }
  destruct (end_release s).
  - destruct T as (pc & kl & T & T1 & T2 & T3).
    assert (X : forall o, In o kl -> exists km p, o = OKeying km p).
    { intros o Ho. rewrite Forall_forall in T3. destruct (T3 _ Ho) as (km & p & -> & _). eauto. }
    clear T3. pose proof (L _ T1) as LP. clear T1 L. revert T LP. generalize (events_of h) as l. revert pc.
    induction pc as [|a pc IH]; intros l T LP.
    + destruct l as [|o l]; cbn in T.
      * exists [], []. split; [reflexivity|]. split; [intros o []|]. auto.
      * injection T as -> T. exists [], (OConnected :: l). split; [reflexivity|]. split; [intros o []|].
        right. exists l. split; [reflexivity|]. rewrite <- T, app_length in T2. split; [lia|].
        intros o Ho. apply X. rewrite <- T. apply in_or_app. auto.
    + destruct l as [|o l]; cbn in T.
      * exists [], []. split; [reflexivity|]. split; [intros o []|]. auto.
      * injection T as -> T. destruct (IH l T) as (pc' & rest & -> & K1 & K2); [intros o Ho; apply LP; right; exact Ho|].
        exists (a :: pc'), rest. split; [reflexivity|]. split; [|exact K2].
        intros o [<-|Ho]; [apply LP; left; reflexivity|auto].
  - exists (events_of h), []. rewrite app_nil_r. split; [reflexivity|]. split; [|auto].
    intros o Ho. apply (L _ T). apply in_or_app. auto.
Qed.

Lemma connected_once cfg auth h s : reach12 E cfg auth h s ->
  (List.length (filter is_connected (outputs h)) <= 1)%nat /\
  (List.length (filter is_keying (outputs h)) <= 1)%nat.
Proof.
  intros H. destruct (reported_order _ _ _ _ H) as (pc & rest & R1 & R2 & R3).
  rewrite !filter_event by (intros []; cbn; congruence). rewrite R1, !filter_app.
  rewrite (filter_none is_connected pc), (filter_none is_keying pc)
    by (intros o Ho; destruct (R2 _ Ho) as (x & ->); reflexivity).
  cbn [app]. destruct R3 as [->|(kl & -> & K1 & K2)]; [cbn; lia|]. cbn [filter is_connected is_keying].
  rewrite (filter_none is_connected kl) by (intros o Ho; destruct (K2 _ Ho) as (x & y & ->); reflexivity).
  split; [cbn; lia|]. etransitivity; [|exact K1].
  clear. induction kl as [|a l IH]; [cbn; lia|]. cbn. destruct (is_keying a); cbn; lia.
Qed.

(** ** Facts of a completed handshake *)

Lemma released_client c : inv_client E c -> en_release (cl_eng c) = true ->
  exists n, 15 <= n /\ facts_c E n c.
Proof.
  intros [[T _] F] R. unfold timers_c, unfinished in T.
  destruct (cl_state c); try (destruct T as (_ & _ & T); congruence).
  - exists 15. split; [lia|exact F].
  - exists 16. split; [lia|]. cbn [phase] in F. rewrite R in F. exact F.
Qed.
Lemma released_server c : inv_server E c -> en_release (sv_eng c) = true ->
  exists n, 13 <= n /\ facts_s E n c.
Proof.
  intros [[T _] F] R. unfold timers_s, unfinished in T.
  destruct (sv_state c); try (destruct T as (_ & _ & T); congruence).
  - exists 13. split; [lia|exact F].
  - exists 14. split; [lia|]. cbn [phase_s] in F. rewrite R in F. exact F.
Qed.

Lemma connected_client cfg auth h c : reach12 E cfg auth h (Cl c) -> In OConnected (outputs h) ->
  exists n, 15 <= n /\ facts_c E n c.
Proof.
  intros H HC. apply released_client; [exact (reach_end_inv E _ _ _ _ H)|exact (connected_release _ _ _ _ H HC)].
Qed.
Lemma connected_server cfg auth h c : reach12 E cfg auth h (Sv c) -> In OConnected (outputs h) ->
  exists n, 13 <= n /\ facts_s E n c.
Proof.
  intros H HC. apply released_server; [exact (reach_end_inv E _ _ _ _ H)|exact (connected_release _ _ _ _ H HC)].
Qed.
End Done.
