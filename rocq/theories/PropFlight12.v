(** C37 for DTLS 1.2, second half: what a PSK server sends until it has checked the
    client's Finished does not depend on the identity. *)
From Verif Require Import Prelude PreludeFacts Types Codec Codec12 Record12 Monad MonadFacts Timer Env
  Config Context12 Engine12 Client12 Server12 Toy History12 Conn12 Poll12Proofs Evidence12 Done12 Tx12Proofs Phase12 ServerInv12 ServerStep12 Events12 Auth12 Cookie12 Flight12.
From Verif Require Import PropHs12.

(** A handshake record of RFC 6347 in the clear, with fragment [f]. *)
Definition plain_record (f raw : bytes) : Prop :=
  exists sq, raw = be 1 22 ++ be 2 65277 ++ be 2 0 ++ be 6 sq ++ be 2 (len f) ++ f.
(** A datagram: nothing or a datagram of [queue], followed by such records with
    fragments of [flight]. *)
Definition from_flight (queue flight : list bytes) (d : bytes) : Prop :=
  exists q raws, d = q ++ concat raws /\ (q = [] \/ In q queue) /\
    Forall (fun raw => exists f, In f flight /\ plain_record f raw) raws.
(** The server has sent its ServerHelloDone and not yet accepted the client's Finished. *)
Definition awaits_client (c : Server12) : Prop :=
  match sv_state c with
  | SS_AwaitCertificate | SS_AwaitClientKeyExchange | SS_AwaitCertificateVerify | SS_AwaitChangeCipherSpec | SS_AwaitFinished => True
  | _ => False
  end.
(** The datagrams made but not yet handed out; the fragments of the flight kept for
    retransmission. *)
Definition queue_of (c : Server12) : list bytes := en_tx (sv_eng c).
Definition flight_of (c : Server12) : list bytes := map snd (en_saved (sv_eng c)).

Lemma awaits_rank c : awaits_client c -> 6 <= s_rank (sv_state c) /\ s_rank (sv_state c) < 11.
Proof. unfold awaits_client. destruct (sv_state c); cbn; intros []; lia. Qed.
Lemma made_from Q F d : made_of (fun q => In q Q) (fun f => In f F) d -> from_flight Q F d.
Proof.
  intros (q & rs & -> & Hq & H). exists q, (map (fun x => s_rec12 CT_HS V_DTLS12 0 (fst x) (snd x)) rs). split; [reflexivity|]. split; [exact Hq|].
  induction H as [|[sq f] rs Hf H IH]; constructor; [|exact IH]. exists f. split; [exact Hf|]. exists sq. reflexivity.
Qed.
Lemma start_band E cfg auth s Q A : start12 E cfg auth s -> match s with Sv c => band (FI Q A []) 0 c | Cl _ => True end.
Proof.
  intros H. assert (K : forall s, start12 E cfg auth s -> en_tx (end_eng s) = [] /\ en_saved (end_eng s) = []).
  { intros x. induction 1; cbn in *; auto. }
  destruct (K _ H) as [K1 K2]. destruct s as [c|c]; [exact I|]. right. split; [lia|]. cbn in K1, K2. unfold FI. cbn [app]. rewrite K1, K2. split; constructor.
Qed.

(** Until the client's Finished is accepted, every datagram of a server is made of
    handshake records in the clear, whatever the client sent. *)
Theorem C37_plain_before_finished12 : forall E cfg auth h c, reach12 E cfg auth h (Sv c) -> awaits_client c ->
  Forall (fun d => exists raws, d = concat raws /\ Forall (fun raw => exists f, plain_record f raw) raws) (packets_of (outputs h)).
Proof.
  intros E cfg auth h c (s0 & H0 & H) W. apply awaits_rank in W.
  pose proof (band_history E (fun _ => False) (fun _ => True) 0 (or_intror (conj eq_refl (fun _ => I))) _ _ _ H (start_band _ _ _ _ _ _ H0)) as [B|[_ [B _]]]; [lia|].
  apply Forall_app in B. eapply Forall_impl; [|exact (proj1 B)]. intros d (q & rs & -> & [-> |[]] & K).
  exists (map (fun x => s_rec12 CT_HS V_DTLS12 0 (fst x) (snd x)) rs). split; [reflexivity|]. clear. induction rs as [|[sq f] rs IH]; constructor; [|exact IH].
  exists f, sq. reflexivity.
Qed.
Print Assumptions C37_plain_before_finished12.

(** From the moment [c1] at which the server waits for the client (before the identity
    arrives, or after), whatever the client sends: either every datagram handed out is
    made of what was already queued and of the records of the flight made before; or the
    resolver knows the identity in the client's ClientKeyExchange.  So the datagrams for
    an unknown identity are drawn from the same flight as for a known one.  (After
    [close] nothing is sent: C43.) *)
Theorem C37_same_flight12 : forall E cfg auth h1 c1 h2 c2 cs,
  reach12 E cfg auth h1 (Sv c1) -> awaits_client c1 ->
  history E (Sv c1) h2 (Sv c2) -> sv_state c2 <> SS_Closed ->
  suite12_of (Sv c2) = Some cs -> suite12_is_psk cs = true ->
  Forall (from_flight (queue_of c1) (flight_of c1)) (packets_of (outputs h2)) \/
  exists identity resolve psk, client_identity_ok (transcript12 (Sv c2)) identity /\
    cfg_resolver cfg = Some resolve /\ resolve identity = Some psk.
Proof.
  intros E cfg auth h1 c1 h2 c2 cs H1 W H2 NC Hs Hp. pose proof (awaits_rank _ W) as [W1 W2].
  assert (B0 : band (FI (fun q => In q (queue_of c1)) (fun f => In f (flight_of c1)) []) 6 c1).
  { right. split; [exact W1|]. split.
    - cbn [app]. apply Forall_forall. intros d Hd. exists d, []. split; [cbn; rewrite app_nil_r; reflexivity|]. split; [right; exact Hd|constructor].
    - destruct H1 as (s0 & H0 & H).
      pose proof (band_history E (fun _ => False) (fun _ => True) 0 (or_intror (conj eq_refl (fun _ => I))) _ _ _ H (start_band _ _ _ _ _ _ H0)) as [B|[_ [_ B]]]; [lia|].
      rewrite Forall_forall in *. intros x Hx. destruct (B x Hx) as (f & -> & _). exists f. split; [reflexivity|]. apply (in_map snd) in Hx. exact Hx. }
  pose proof (band_history E _ _ 6 (or_introl eq_refl) _ _ _ H2 B0) as [B|[_ [B _]]].
  - right. assert (V : inv_server E c2 /\ en_cfg (sv_eng c2) = cfg).
    { pose proof (reach_end_inv E _ _ _ _ H1) as V. pose proof (proj1 (reach_auth _ _ _ _ _ H1)) as C0. revert V C0.
      assert (G : forall s0 h s, history E s0 h s -> inv_end E s0 -> en_cfg (end_eng s0) = cfg -> inv_end E s /\ en_cfg (end_eng s) = cfg).
      { induction 1 as [|h s k r s' H IH NP C]; [auto|]. intros A1 A2. destruct (IH A1 A2) as [A3 A4]. split; [eapply call_inv; eassumption|].
        rewrite <- A4.
        destruct s as [x|x]; cbn [end12_call] in C.
        - pose proof (sa_client_call E k x) as K. destruct (client12_call E k x). injection C as <- <-. apply K.
        - pose proof (sa_server_call E k x) as K. destruct (server12_call E k x). injection C as <- <-. apply K. }
      intros V C0. exact (G _ _ _ H2 V C0). }
    destruct V as [[_ F] VC].
    assert (Hn : 11 <= phase_s (sv_state c2) (sv_eng c2)) by (unfold phase_s; destruct (sv_state c2); try exact B; congruence).
    assert (HP : s_psk c2 = true) by (unfold s_psk, suite12_of in *; cbn [end_eng] in Hs; rewrite Hs; exact Hp).
    destruct (g_secret _ _ _ F) as (pms & S1 & _); [lia|]. unfold s_source in S1. rewrite HP in S1.
    destruct S1 as (identity & resolve & psk & L1 & L2 & _ & L4). exists identity, resolve, psk. rewrite VC in L2.
    split; [exact L1|]. split; [exact L2|]. apply L4, (g_psk _ _ _ F); assumption.
  - left. apply Forall_app in B. eapply Forall_impl; [|exact (proj1 B)]. intros d. apply made_from.
Qed.
Print Assumptions C37_same_flight12.

(** A case: a server whose resolver knows nobody, in the exchange of C37_case.  The
    identity is refused ([sv_psk_valid] is false), and on a timeout the server sends the
    flight again: 136 bytes, as before. *)
From Verif Require Import Runs12.
Definition cfg_nobody : Config := cfg_psk (PskServer (Some [9]) (fun _ => None)).
Definition nobody1 : Log * End12 := replay toy2 (firstn 7 psk_sv_calls) (new_server toy2 cfg_nobody AuthPsk 0).
Definition nobody2 : Log * End12 := replay toy2 (skipn 7 psk_sv_calls ++ [Tick 2000000005; Tick 9000000005; Poll 3000]) (snd nobody1).
Example C37_same_flight_case : reach12 toy2 cfg_nobody AuthPsk (fst nobody1) (snd nobody1) /\
  history toy2 (snd nobody1) (fst nobody2) (snd nobody2) /\
  match snd nobody1, snd nobody2 with
  | Sv c1, Sv c2 => awaits_client c1 /\ map len (flight_of c1) = [70; 15; 12] /\ sv_state c2 = SS_AwaitChangeCipherSpec /\
      sv_psk_valid c2 = Some false /\ suite12_of (Sv c2) = Some CS_PSK
  | _, _ => False
  end /\
  map len (packets_of (outputs (fst nobody1))) = [60; 136] /\ map len (packets_of (outputs (fst nobody2))) = [136].
Proof.
  split. { eexists. split; [apply new_server_start|]. apply replay_history. vm_compute. reflexivity. }
  split. { apply replay_history. vm_compute. reflexivity. }
  vm_compute. auto 10.
Qed.
