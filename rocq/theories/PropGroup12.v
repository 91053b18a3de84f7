(** C39, DTLS 1.2 client: the group of the key exchange is not checked against the
    groups of the client's own configuration. *)
From Verif Require Import Prelude PreludeFacts Types Codec Codec12 Record12 Monad MonadFacts Timer Env Toy
  Config Context12 Engine12 Client12 Server12 History12 Conn12 Evidence12.

(** A peer that answers with a group of its own choice: the server of this library with
    one line changed (the client's groups are replaced by P-256). *)
Fixpoint bad_progress (E : Env) (fuel : nat) : M Server12 unit :=
  match fuel with
  | O => ret tt
  | S fuel' =>
    let! s := get in
    let! st := s_step E (sv_state s) in
    if sstate12_eqb (sv_state s) st then ret tt
    else when (sstate12_eqb st SS_SendServerHello) (modify (set_sv_groups (Some [G_P256]))) ;;;
         modify (set_sv_state st) ;;; bad_progress E fuel'
  end.
Definition bad_packet (E : Env) (p : bytes) (x : End12) : End12 :=
  match x with
  | Sv s => Sv (snd ((zoom sv_eng set_sv_eng (eng12_parse_packet E p) ;;; bad_progress E 40) s))
  | Cl c => Cl c
  end.
Fixpoint bad_pump (n : nat) (c : Log * End12) (s : Log * End12) : Log * End12 :=
  match n with
  | O => c
  | S k =>
    let '(ps, c) := drain_log toy 200 c in
    let s := ([], fold_left (fun s p => bad_packet toy2 p s) ps (snd s)) in
    let '(ps, s) := drain_log toy2 200 s in
    bad_pump k (calls_log toy (map Packet ps) c) s
  end.
(** The client allows X25519 only. *)
Definition cfg_x25519 : Config := mkConfig 1150 30 10 true true 1000000000 4 40000000000 (2 ^ 23) None None (Some [G_X25519]) None.
Definition g39 := bad_pump 8 (call_log toy (Tick 5) ([], new_client toy cfg_x25519 (toy_auth 7) 0))
    (call_log toy2 (Tick 5) ([], new_server toy2 config_default (toy_auth 9) 0)).

(** The calls of the client in that exchange, and their replay on a new client. *)
Definition g39_calls : list Call := Eval vm_compute in calls_of (fst g39).
Definition g39_run : Log * End12 := replay toy g39_calls (new_client toy cfg_x25519 (toy_auth 7) 0).
Lemma g39_reach : reach12 toy cfg_x25519 (toy_auth 7) (fst g39_run) (snd g39_run).
Proof.
  exists (new_client toy cfg_x25519 (toy_auth 7) 0). split; [apply new_client_start|].
  apply replay_history. vm_compute. reflexivity.
Qed.

(** The first message of a type in a transcript: what precedes it, its number, its body. *)
Fixpoint find_msg (fuel : nat) (mt : N) (before T : bytes) : option (bytes * N * bytes * bytes) :=
  match fuel with
  | O => None
  | S k =>
    let n := (12 + N.to_nat (unbe (firstn 3 (skipn 1 T))))%nat in
    if hd 0 T =? mt then Some (before, unbe (firstn 2 (skipn 4 T)), skipn 12 (firstn n T), skipn n T)
    else find_msg k mt (before ++ firstn n T) (skipn n T)
  end.
Definition g39_T : bytes := Eval vm_compute in match snd g39_run with Cl c => en_transcript (cl_eng c) | Sv _ => [] end.
Definition g39_ske : bytes * N * bytes * bytes := Eval vm_compute in match find_msg 20 MT_ServerKeyExchange [] g39_T with Some x => x | None => ([], 0, [], []) end.

Lemma g39_connected : existsb (fun o => match o with OConnected => true | _ => false end) (outputs (fst g39_run)) = true.
Proof. vm_compute. reflexivity. Qed.
Lemma g39_transcript : match snd g39_run with Cl c => en_transcript (cl_eng c) | Sv _ => [] end = g39_T.
Proof. vm_compute. reflexivity. Qed.
Lemma g39_msg : g39_T = fst (fst (fst g39_ske)) ++ tmsg MT_ServerKeyExchange (snd (fst (fst g39_ske))) (snd (fst g39_ske)) ++ snd g39_ske.
Proof. vm_compute. reflexivity. Qed.
Lemma g39_group : exists curve pub alg sig rest,
  p_ske12 KX_ECDHE (snd (fst g39_ske)) = Some (SKE_ecdh curve G_P256 pub (Some (alg, sig)), rest).
Proof. vm_compute. do 5 eexists. reflexivity. Qed.

(** A client whose configuration allows one group connects on the basis of a
    ServerKeyExchange in another group. *)
Theorem C39_client_group12_refuted : exists E cfg auth h c,
  reach12 E cfg auth h (Cl c) /\ In OConnected (outputs h) /\
  exists before raw rest curve group pub alg sig,
    has_msg (en_transcript (cl_eng c)) before MT_ServerKeyExchange raw /\
    p_ske12 KX_ECDHE raw = Some (SKE_ecdh curve group pub (Some (alg, sig)), rest) /\
    ~ In group (cfg_groups E cfg).
Proof.
  generalize g39_reach, g39_connected, g39_transcript, g39_msg, g39_group. generalize g39_run, g39_T, g39_ske.
  intros [h e] T [[[before seq] raw] after] R C TT M (curve & pub & alg & sig & rest & P). cbn [fst snd] in *.
  apply existsb_exists in C. destruct C as (o & Ho & Eo). destruct o; try discriminate Eo.
  destruct e as [c|c].
  - exists toy, cfg_x25519, (toy_auth 7), h, c. split; [exact R|]. split; [exact Ho|].
    exists before, raw, rest, curve, G_P256, pub, alg, sig. split; [exists seq, after; congruence|]. split; [exact P|].
    vm_compute. intros [X|[]]. discriminate X.
  - exfalso. rewrite <- TT in M. destruct before; discriminate M.
Qed.
Print Assumptions C39_client_group12_refuted.
