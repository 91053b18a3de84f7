(** Concrete runs of auto-sensing endpoints: they meet the hypotheses of the theorems
    of PropAuto.v. *)
From Verif Require Import Prelude PreludeFacts Types Codec Codec12 Codec13 Record12 Record13 Env Config Context12 Monad Timer
  Engine12 Client12 Server12 Engine13 Client13 Server13 History12 History13 Toy Conn12 Conn13 Auto AutoProofs PropAuto.

Fixpoint auto_replay (E : Env) (cs : list Call) (d : Dtls) : Log * Dtls :=
  match cs with
  | [] => ([], d)
  | c :: cs => let '(r, d') := dtls_call E c d in let '(h, d'') := auto_replay E cs d' in ((c, r) :: h, d'')
  end.
Lemma auto_cons E d0 c r d1 h d : dtls_call E c d0 = (r, d1) -> ~ panicked r -> auto_history E d1 h d -> auto_history E d0 ((c, r) :: h) d.
Proof.
  intros Hc Hp H. induction H as [|h s c' r' s' H IH NP C].
  - apply (auto_snoc E d0 [] d0); [constructor|constructor|exact Hc].
  - change ((c, r) :: h ++ [(c', r')]) with (((c, r) :: h) ++ [(c', r')]).
    econstructor; [exact IH| |exact C]. constructor; [exact Hp|exact NP].
Qed.
Lemma auto_replay_history E cs : forall d, quiet (fst (auto_replay E cs d)) = true -> auto_history E d (fst (auto_replay E cs d)) (snd (auto_replay E cs d)).
Proof.
  induction cs as [|c cs IH]; intros d H; [constructor|]. cbn [auto_replay] in *. destruct (dtls_call E c d) as [r d1] eqn:Hc.
  specialize (IH d1). destruct (auto_replay E cs d1) as [h d2]. cbn [fst snd quiet forallb] in *. apply andb_prop in H. destruct H as [H1 H2].
  eapply auto_cons; [exact Hc| |exact (IH H2)]. unfold panicked. destruct r; first [discriminate H1 | intros []].
Qed.

(** Two endpoints over a lossless network. *)
Definition alog (E : Env) (c : Call) (x : Log * Dtls) : Log * Dtls := let '(h, s) := x in let '(r, s') := dtls_call E c s in (h ++ [(c, r)], s').
Fixpoint adrain (E : Env) (n : nat) (x : Log * Dtls) : list bytes * (Log * Dtls) :=
  match n with
  | O => ([], x)
  | S k => let '(h, s) := x in let '(r, s') := dtls_call E (Poll 3000) s in
    let x' := (h ++ [(Poll 3000, r)], s') in
    match r with
    | Ok (Some (OTimeout _)) => ([], x')
    | Ok (Some (OPacket p)) => let '(ps, x'') := adrain E k x' in (p :: ps, x'')
    | Ok _ => adrain E k x'
    | _ => ([], x')
    end
  end.
Fixpoint apump (E E' : Env) (n : nat) (c s : Log * Dtls) : (Log * Dtls) * (Log * Dtls) :=
  match n with
  | O => (c, s)
  | S k =>
    let '(ps, c) := adrain E 200 c in
    let s := fold_left (fun x c => alog E' c x) (map Packet ps) s in
    let '(ps, s) := adrain E' 200 s in
    let c := fold_left (fun x c => alog E c x) (map Packet ps) c in
    apump E E' k c s
  end.
Definition connected (h : Log) : bool := existsb (fun o => match o with OConnected => true | _ => false end) (outputs h).

Definition auto_c0 : Dtls := snd (set_active toy true (dtls_new_auto toy config_default [48; 7] (toy_key 7) 0)).
Definition auto_s0 : Dtls := dtls_new_auto toy2 config_default [48; 9] (toy_key 9) 0.
Definition summary (x : (Log * Dtls) * (Log * Dtls)) :=
  (connected (fst (fst x)), protocol_version (snd (fst x)), connected (fst (snd x)), protocol_version (snd (snd x))).
Definition meet (c s : Dtls) := apump toy toy2 9 (alog toy (Tick 5) ([], c)) (alog toy2 (Tick 5) ([], s)).


(** All pairings connect and agree on the version. *)
Example auto_auto : summary (meet auto_c0 auto_s0) = (true, Some V_DTLS13, true, Some V_DTLS13).
Proof. vm_compute. reflexivity. Qed.
Example auto_client_13 : summary (meet auto_c0 (I13 xs0)) = (true, Some V_DTLS13, true, Some V_DTLS13).
Proof. vm_compute. reflexivity. Qed.
Example client_13_auto : summary (meet (I13 xc0) auto_s0) = (true, Some V_DTLS13, true, Some V_DTLS13).
Proof. vm_compute. reflexivity. Qed.
Example auto_client_12 : summary (meet auto_c0 (I12 (new_server toy2 config_default (toy_auth 9) 0))) = (true, Some V_DTLS12, true, Some V_DTLS12).
Proof. vm_compute. reflexivity. Qed.
Example client_12_auto : summary (meet (I12 (new_client toy config_default (toy_auth 7) 0)) auto_s0) = (true, Some V_DTLS12, true, Some V_DTLS12).
Proof. vm_compute. reflexivity. Qed.

Lemma auto_c0_start : auto_start toy config_default [48; 7] (toy_key 7) auto_c0.
Proof. apply (auto_client _ _ _ _ 0). vm_compute. reflexivity. Qed.
Lemma auto_run_reach cs : quiet (fst (auto_replay toy cs auto_c0)) = true ->
  auto_reach toy config_default [48; 7] (toy_key 7) (fst (auto_replay toy cs auto_c0)) (snd (auto_replay toy cs auto_c0)).
Proof. intro H. exists auto_c0. split; [exact auto_c0_start|]. apply auto_replay_history. exact H. Qed.

(** The pending client after its first hello and two retransmissions. *)
Definition waited : Log * Dtls := auto_replay toy [Tick 5; Poll 2000; Tick (5 + sec); Poll 10; Poll 2000; Tick (7 + 3 * sec); Poll 2000; Poll 2000] auto_c0.
Example C46_case :
  auto_reach toy config_default [48; 7] (toy_key 7) (fst waited) (snd waited) /\
  protocol_version (snd waited) = None /\ len (sent (fst waited)) = 3 /\
  last (outputs (fst waited)) OConnected = OTimeout (7 + 7 * sec).
Proof.
  split; [apply auto_run_reach; vm_compute; reflexivity|]. split; [vm_compute; reflexivity|]. split; [vm_compute; reflexivity|].
  vm_compute. reflexivity.
Qed.
Example C44_case : 0 < c_hs_timeout config_default /\ protocol_version (snd waited) = None /\ fst (dtls_call toy Close (snd waited)) = Err EHandshakePending.
Proof. split; [reflexivity|]. split; vm_compute; reflexivity. Qed.

(** The extension lists of C45. *)
Example C45_case : selects13 [(X_KEYSHARE, [0; 1]); (X_VERSIONS, [254; 252])] /\ ~ selects13 [(X_VERSIONS, [254; 253])] /\ ~ selects13 [(X_EMS, [])].
Proof.
  split; [exists []; reflexivity|]. split; intros [d H]; discriminate H.
Qed.

(** "Never panics on any datagram" fails: a ServerHello whose last extension header
    is a [supported_versions] announcing two bytes that are not there makes the
    client read outside the message. *)
Definition short_hello : bytes :=
  hs_datagram MT_ServerHello (repeat 0 10) (repeat 0 8)
    (repeat 0 34 ++ [0] ++ [19; 1] ++ [0] ++ be 2 4 ++ be 2 X_VERSIONS ++ be 2 2) [] [].
Theorem C45_panic_refuted : exists h d p,
  auto_reach toy config_default [48; 7] (toy_key 7) h d /\ len p = 69 /\ fst (dtls_call toy (Packet p) d) = Panic 436.
Proof.
  exists (fst waited), (snd waited), short_hello. split; [apply auto_run_reach; vm_compute; reflexivity|].
  split; vm_compute; reflexivity.
Qed.
Print Assumptions C45_panic_refuted.

(** With a handshake timeout of zero the switch fails after the pending client is
    gone, and the next call panics. *)
Definition cfg_no_time : Config :=
  mkConfig 1150 30 10 true true 1000000000 4 0 (2 ^ 23) None None None None.
Definition gone : Log * Dtls :=
  auto_replay toy [Tick 5; Packet (hs_datagram MT_HelloVerifyRequest (repeat 0 10) (repeat 0 8) [] [] [])]
    (snd (set_active toy true (dtls_new_auto toy cfg_no_time [48; 7] (toy_key 7) 0))).
Theorem C54_no_time_refuted : exists h d,
  auto_reach toy cfg_no_time [48; 7] (toy_key 7) h d /\ Forall (fun x => ~ panicked (snd x)) h /\
  fst (dtls_call toy (Poll 2000) d) = Panic 739.
Proof.
  exists (fst gone), (snd gone). split.
  - eexists. split; [apply (auto_client _ _ _ _ 0); vm_compute; reflexivity|]. apply auto_replay_history. vm_compute. reflexivity.
  - split; [|vm_compute; reflexivity].
    assert (K : map snd (fst gone) = [Ok None; Err (ETimeout TO_Connect)]) by (vm_compute; reflexivity).
    revert K. generalize (fst gone). intros l K. destruct l as [|a [|b [|c l]]]; try discriminate. cbn [map] in K.
    injection K as Ha Hb. constructor; [rewrite Ha; exact (fun x => x)|]. constructor; [rewrite Hb; exact (fun x => x)|constructor].
Qed.
Print Assumptions C54_no_time_refuted.

(** A role change back to server while the version is undecided panics. *)
Theorem C54_role_refuted : exists d, auto_start toy config_default [48; 7] (toy_key 7) d /\ fst (set_active toy false d) = Panic 584.
Proof. exists auto_c0. split; [exact auto_c0_start|]. vm_compute. reflexivity. Qed.
Print Assumptions C54_role_refuted.

(** The hello is not fragmented: with a small MTU it is longer than the MTU. *)
Definition cfg_small : Config :=
  mkConfig 100 30 10 true true 1000000000 4 40000000000 (2 ^ 23) None None None None.
Definition small : Log * Dtls :=
  auto_replay toy [Tick 5; Poll 2000] (snd (set_active toy true (dtls_new_auto toy cfg_small [48; 7] (toy_key 7) 0))).
Theorem C17_hybrid_hello_refuted : exists h d p,
  auto_reach toy cfg_small [48; 7] (toy_key 7) h d /\ In p (sent h) /\ c_mtu cfg_small < len p.
Proof.
  exists (fst small), (snd small), (nth 0 (sent (fst small)) []). split; [|split].
  - eexists. split; [apply (auto_client _ _ _ _ 0); vm_compute; reflexivity|]. apply auto_replay_history. vm_compute. reflexivity.
  - vm_compute. left. reflexivity.
  - vm_compute. reflexivity.
Qed.
Print Assumptions C17_hybrid_hello_refuted.
