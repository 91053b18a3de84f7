(** Running two DTLS 1.2 endpoints of [History12] against each other and keeping
    the history of calls of each.  Used by examples only: it provides reachable
    states that meet the hypotheses of the theorems. *)
From Verif Require Import Prelude Types Env Config Context12 Monad Timer Engine12 Client12 Server12
  Toy History12.

Definition Log := list (Call * Reply).

(** Make one call and log it. *)
Definition call_log (E : Env) (c : Call) (x : Log * End12) : Log * End12 :=
  let '(h, s) := x in let '(r, s') := end12_call E c s in (h ++ [(c, r)], s').
Definition calls_log (E : Env) (cs : list Call) (x : Log * End12) : Log * End12 :=
  fold_left (fun x c => call_log E c x) cs x.

(** Poll until [OTimeout] (at most [n] times); the packets returned. *)
Fixpoint drain_log (E : Env) (n : nat) (x : Log * End12) : list bytes * (Log * End12) :=
  match n with
  | O => ([], x)
  | S k =>
    let '(h, s) := x in
    let '(r, s') := end12_call E (Poll 3000) s in
    let x' := (h ++ [(Poll 3000, r)], s') in
    match r with
    | Ok (Some (OTimeout _)) => ([], x')
    | Ok (Some (OPacket p)) => let '(ps, x'') := drain_log E k x' in (p :: ps, x'')
    | Ok _ => drain_log E k x'
    | _ => ([], x')
    end
  end.

(** [n] rounds over a lossless network. *)
Fixpoint pump_log (E E' : Env) (n : nat) (c s : Log * End12) : (Log * End12) * (Log * End12) :=
  match n with
  | O => (c, s)
  | S k =>
    let '(ps, c) := drain_log E 200 c in
    let s := calls_log E' (map Packet ps) s in
    let '(ps, s) := drain_log E' 200 s in
    let c := calls_log E (map Packet ps) c in
    pump_log E E' k c s
  end.

Definition new_server (E : Env) (cfg : Config) (auth : AuthMode) (now : N) : End12 :=
  Sv (server12_new E (eng12_new E cfg auth) now).
Definition new_client (E : Env) (cfg : Config) (auth : AuthMode) (now : N) : End12 :=
  Cl (server12_into_client (server12_new E (eng12_new E cfg auth) now)).

Lemma new_server_start E cfg auth now : start12 E cfg auth (new_server E cfg auth now).
Proof. constructor. Qed.
Lemma new_client_start E cfg auth now : start12 E cfg auth (new_client E cfg auth now).
Proof. apply start_to_client. constructor. Qed.

(** The same environment with other random values, for the other side. *)
Definition toy2 : Env := mkEnv
  toy_suites12 toy_suites13 [G_X25519; G_P256; G_P384]
  (fun _ _ => true) toy_seal toy_open
  (fun s k sample => toy_expand 16 (toy_mix (toy_mix s k) sample))
  toy_hash toy_hmac (fun g t => toy_kx_start g (t + 100)) toy_kx_complete toy_sign toy_verify
  (fun _ => Some G_P256)
  (fun t n => toy_expand n ((t + 1000) * 7919 + 104729))
  (fun _ => 0%Z) (fun _ _ => 0)
  (fun _ cs => toy_bsearch 0 cs).

(** A checked log is a history. *)
Definition quiet (h : Log) : bool :=
  forallb (fun x => match snd x with Panic _ => false | _ => true end) h.

Lemma quiet_forall h : quiet h = true -> Forall (fun x => ~ panicked (snd x)) h.
Proof.
  unfold quiet. rewrite forallb_forall, Forall_forall. intros H x Hx. specialize (H x Hx). cbn beta in H. revert H.
  destruct x as [c r]. cbn. destruct r; intros H; first [discriminate H | intros []].
Qed.

(** Replaying the calls of a log gives the log: the check that a log is a history. *)
Fixpoint replay (E : Env) (cs : list Call) (s : End12) : Log * End12 :=
  match cs with
  | [] => ([], s)
  | c :: cs => let '(r, s') := end12_call E c s in let '(h, s'') := replay E cs s' in ((c, r) :: h, s'')
  end.

Lemma history_cons E s0 c r s1 h s : end12_call E c s0 = (r, s1) -> ~ panicked r ->
  history E s1 h s -> history E s0 ((c, r) :: h) s.
Proof.
  intros Hc Hp H. induction H as [|h s c' r' s' H IH NP C].
  - apply (history_snoc E s0 [] s0); [constructor|constructor|exact Hc].
  - change ((c, r) :: h ++ [(c', r')]) with (((c, r) :: h) ++ [(c', r')]).
    econstructor; [exact IH| |exact C]. constructor; [exact Hp|exact NP].
Qed.

Lemma replay_history E cs : forall s, quiet (removelast (fst (replay E cs s))) = true ->
  history E s (fst (replay E cs s)) (snd (replay E cs s)).
Proof.
  induction cs as [|c cs IH]; intros s H; [constructor|].
  cbn [replay] in *. destruct (end12_call E c s) as [r s1] eqn:Hc.
  destruct (replay E cs s1) as [h s2] eqn:Hr. specialize (IH s1). rewrite Hr in IH. cbn [fst snd] in *.
  destruct h as [|x h].
  - assert (s2 = s1).
    { destruct cs as [|c' cs]; cbn [replay] in Hr; [congruence|].
      destruct (end12_call E c' s1), (replay E cs e). discriminate. }
    subst. apply (history_snoc E s [] s); [constructor|constructor|exact Hc].
  - change (removelast ((c, r) :: x :: h)) with ((c, r) :: removelast (x :: h)) in H.
    cbn [quiet forallb snd] in H. apply andb_prop in H. destruct H as [H1 H2].
    eapply history_cons; [exact Hc| |exact (IH H2)].
    unfold panicked. destruct r; first [discriminate H1 | intros []].
Qed.

Definition calls_of (h : Log) : list Call := map fst h.

(** A connection with certificates and default configuration: the client uses
    [toy], the server [toy2]. *)
Definition conn12 : (Log * End12) * (Log * End12) :=
  pump_log toy toy2 8
    (call_log toy (Tick 5) ([], new_client toy config_default (toy_auth 7) 0))
    (call_log toy2 (Tick 5) ([], new_server toy2 config_default (toy_auth 9) 0)).
Definition cl_est : Log * End12 := fst conn12.
Definition sv_est : Log * End12 := snd conn12.

(** Decidable comparison of logs is avoided: [replay] recomputes the log from its
    calls. *)
Definition cl_calls : list Call := Eval vm_compute in calls_of (fst cl_est).
Definition sv_calls : list Call := Eval vm_compute in calls_of (fst sv_est).
Definition cl_run : Log * End12 := replay toy cl_calls (new_client toy config_default (toy_auth 7) 0).
Definition sv_run : Log * End12 := replay toy2 sv_calls (new_server toy2 config_default (toy_auth 9) 0).

Lemma cl_run_reach : reach12 toy config_default (toy_auth 7) (fst cl_run) (snd cl_run).
Proof.
  exists (new_client toy config_default (toy_auth 7) 0). split; [apply new_client_start|].
  apply replay_history. vm_compute. reflexivity.
Qed.
Lemma sv_run_reach : reach12 toy2 config_default (toy_auth 9) (fst sv_run) (snd sv_run).
Proof.
  exists (new_server toy2 config_default (toy_auth 9) 0). split; [apply new_server_start|].
  apply replay_history. vm_compute. reflexivity.
Qed.
