(** Running two DTLS 1.3 endpoints of [History13] against each other and keeping
    the history of calls of each.  Used by examples only: it provides reachable
    states that meet the hypotheses of the theorems. *)
From Verif Require Import Prelude Types Env Config Monad Timer Engine12 Client12 Engine13 Client13 Server13
  Toy History12 Conn12 History13.

Definition call_log13 (E : Env) (c : Call) (x : Log * End13) : Log * End13 :=
  let '(h, s) := x in let '(r, s') := end13_call E c s in (h ++ [(c, r)], s').
Definition calls_log13 (E : Env) (cs : list Call) (x : Log * End13) : Log * End13 :=
  fold_left (fun x c => call_log13 E c x) cs x.

(** Poll until [OTimeout] (at most [n] times); the packets returned. *)
Fixpoint drain_log13 (E : Env) (n : nat) (x : Log * End13) : list bytes * (Log * End13) :=
  match n with
  | O => ([], x)
  | S k =>
    let '(h, s) := x in
    let '(r, s') := end13_call E (Poll 3000) s in
    let x' := (h ++ [(Poll 3000, r)], s') in
    match r with
    | Ok (Some (OTimeout _)) => ([], x')
    | Ok (Some (OPacket p)) => let '(ps, x'') := drain_log13 E k x' in (p :: ps, x'')
    | Ok _ => drain_log13 E k x'
    | _ => ([], x')
    end
  end.

(** [n] rounds over a lossless network. *)
Fixpoint pump_log13 (E E' : Env) (n : nat) (c s : Log * End13) : (Log * End13) * (Log * End13) :=
  match n with
  | O => (c, s)
  | S k =>
    let '(ps, c) := drain_log13 E 200 c in
    let s := calls_log13 E' (map Packet ps) s in
    let '(ps, s) := drain_log13 E' 200 s in
    let c := calls_log13 E (map Packet ps) c in
    pump_log13 E E' k c s
  end.

Definition new_server13 (E : Env) (cfg : Config) (cert : bytes) (key : KeyInfo) (now : N) : End13 :=
  XS (server13_new E (eng13_new E cfg cert key false) now false).
Definition new_client13 (E : Env) (cfg : Config) (cert : bytes) (key : KeyInfo) (now : N) : End13 :=
  XC (server13_into_client (server13_new E (eng13_new E cfg cert key false) now false)).

Lemma new_server13_start E cfg cert key now : start13 E cfg cert key (new_server13 E cfg cert key now).
Proof. constructor. constructor. Qed.
Lemma new_client13_start E cfg cert key now : start13 E cfg cert key (new_client13 E cfg cert key now).
Proof. constructor. apply fresh13_to_client. constructor. Qed.

Fixpoint replay13 (E : Env) (cs : list Call) (s : End13) : Log * End13 :=
  match cs with
  | [] => ([], s)
  | c :: cs => let '(r, s') := end13_call E c s in let '(h, s'') := replay13 E cs s' in ((c, r) :: h, s'')
  end.

Lemma history13_cons E s0 c r s1 h s : end13_call E c s0 = (r, s1) -> ~ panicked r ->
  history13 E s1 h s -> history13 E s0 ((c, r) :: h) s.
Proof.
  intros Hc Hp H. induction H as [|h s c' r' s' H IH NP C].
  - apply (history13_snoc E s0 [] s0); [constructor|constructor|exact Hc].
  - change ((c, r) :: h ++ [(c', r')]) with (((c, r) :: h) ++ [(c', r')]).
    econstructor; [exact IH| |exact C]. constructor; [exact Hp|exact NP].
Qed.

Lemma replay13_history E cs : forall s, quiet (removelast (fst (replay13 E cs s))) = true ->
  history13 E s (fst (replay13 E cs s)) (snd (replay13 E cs s)).
Proof.
  induction cs as [|c cs IH]; intros s H; [constructor|].
  cbn [replay13] in *. destruct (end13_call E c s) as [r s1] eqn:Hc.
  destruct (replay13 E cs s1) as [h s2] eqn:Hr. specialize (IH s1). rewrite Hr in IH. cbn [fst snd] in *.
  destruct h as [|x h].
  - assert (s2 = s1).
    { destruct cs as [|c' cs]; cbn [replay13] in Hr; [congruence|].
      destruct (end13_call E c' s1), (replay13 E cs e). discriminate. }
    subst. apply (history13_snoc E s [] s); [constructor|constructor|exact Hc].
  - change (removelast ((c, r) :: x :: h)) with ((c, r) :: removelast (x :: h)) in H.
    cbn [quiet forallb snd] in H. apply andb_prop in H. destruct H as [H1 H2].
    eapply history13_cons; [exact Hc| |exact (IH H2)].
    unfold panicked. destruct r; first [discriminate H1 | intros []].
Qed.

(** A connection with the default configuration (cookie exchange, client
    certificate): the client uses [toy], the server [toy2]. *)
Definition xc0 : End13 := new_client13 toy config_default [48; 7] (toy_key 7) 0.
Definition xs0 : End13 := new_server13 toy2 config_default [48; 9] (toy_key 9) 0.
Definition conn13 : (Log * End13) * (Log * End13) :=
  pump_log13 toy toy2 8 (call_log13 toy (Tick 5) ([], xc0)) (call_log13 toy2 (Tick 5) ([], xs0)).
Definition xc_calls : list Call := Eval vm_compute in calls_of (fst (fst conn13)).
Definition xs_calls : list Call := Eval vm_compute in calls_of (fst (snd conn13)).
(** Runs are stored as values, so that what is said about one later does not need it
    to be computed again; the equation is checked once. *)
Definition xc_run : Log * End13 := Eval vm_compute in replay13 toy xc_calls xc0.
Definition xs_run : Log * End13 := Eval vm_compute in replay13 toy2 xs_calls xs0.
Lemma xc_run_eq : replay13 toy xc_calls xc0 = xc_run.
Proof. vm_compute. reflexivity. Qed.
Lemma xs_run_eq : replay13 toy2 xs_calls xs0 = xs_run.
Proof. vm_compute. reflexivity. Qed.
Lemma run13_reach E cfg cert key cs s0 : start13 E cfg cert key s0 ->
  quiet (removelast (fst (replay13 E cs s0))) = true ->
  reach13 E cfg cert key (fst (replay13 E cs s0)) (snd (replay13 E cs s0)).
Proof. intros H Q. exists s0. split; [exact H|]. apply replay13_history, Q. Qed.
Lemma stored13_reach E cfg cert key cs s0 x : replay13 E cs s0 = x -> start13 E cfg cert key s0 ->
  quiet (removelast (fst x)) = true -> reach13 E cfg cert key (fst x) (snd x).
Proof. intros <-. apply run13_reach. Qed.
(** A run continued from a stored one. *)
Definition then13 (E : Env) (x : Log * End13) (cs : list Call) : Log * End13 :=
  let y := replay13 E cs (snd x) in (fst x ++ fst y, snd y).
Lemma replay13_app E cs ds : forall s, replay13 E (cs ++ ds) s = then13 E (replay13 E cs s) ds.
Proof.
  induction cs as [|c cs IH]; intros s.
  - unfold then13. cbn [app replay13 fst snd]. destruct (replay13 E ds s). reflexivity.
  - cbn [app replay13]. destruct (end13_call E c s) as [r s1]. rewrite IH. destruct (replay13 E cs s1) as [h s2].
    unfold then13. cbn [fst snd]. destruct (replay13 E ds s2). reflexivity.
Qed.
Lemma then13_eq E cs ds s x : replay13 E cs s = x -> replay13 E (cs ++ ds) s = then13 E x ds.
Proof. intros <-. apply replay13_app. Qed.
Lemma then13_reach E cfg cert key cs ds s0 x : replay13 E cs s0 = x -> start13 E cfg cert key s0 ->
  quiet (removelast (fst (then13 E x ds))) = true -> reach13 E cfg cert key (fst (then13 E x ds)) (snd (then13 E x ds)).
Proof. intros H. apply then13_eq with (ds := ds) in H. exact (stored13_reach E cfg cert key _ s0 _ H). Qed.
Lemma xc_run_history : history13 toy xc0 (fst xc_run) (snd xc_run).
Proof.
  pose proof (replay13_history toy xc_calls xc0) as H. rewrite xc_run_eq in H. apply H. vm_compute. reflexivity.
Qed.
Lemma xc_run_reach : reach13 toy config_default [48; 7] (toy_key 7) (fst xc_run) (snd xc_run).
Proof. apply (stored13_reach _ _ _ _ _ _ _ xc_run_eq); [apply new_client13_start|vm_compute; reflexivity]. Qed.
Lemma xs_run_reach : reach13 toy2 config_default [48; 9] (toy_key 9) (fst xs_run) (snd xs_run).
Proof. apply (stored13_reach _ _ _ _ _ _ _ xs_run_eq); [apply new_server13_start|vm_compute; reflexivity]. Qed.
(** Prefixes of these runs are histories too. *)
Lemma prefix13 E s0 h s : history13 E s0 h s -> forall h1 h2, h = h1 ++ h2 ->
  exists s1, history13 E s0 h1 s1.
Proof.
  induction 1 as [|h s c r s' H IH NP C]; intros h1 h2 K.
  - symmetry in K. apply app_eq_nil in K. destruct K as [-> _]. eexists. constructor.
  - destruct h2 as [|x h2] using rev_ind.
    + rewrite app_nil_r in K. subst h1. exists s'. econstructor; eassumption.
    + rewrite app_assoc in K. apply app_inj_tail in K. destruct K as [K _]. eapply IH. exact K.
Qed.
