(** Histories of API calls on a DTLS 1.2 endpoint.  Theorems about the endpoint are
    stated for every history. *)
From Verif Require Import Prelude Types Env Config Context12 Monad Timer Engine12 Client12 Server12.

(** src/lib.rs [Dtls]: the calls of the application.  [Packet p] is
    [handle_packet(p)], [Poll cap] is [poll_output] with a buffer of [cap] bytes,
    [Tick now] is [handle_timeout(now)], [Send d] is [send_application_data(d)] and
    [Close] is [close()]. *)
Inductive Call := Packet (p : bytes) | Poll (cap : N) | Tick (now : N) | Send (d : bytes) | Close.

(** What a call returns: an output ([Poll]) or nothing, an error, or a panic. *)
Definition Reply := res (option Output).

(** src/lib.rs:305-311 [Inner], the DTLS 1.2 cases. *)
Inductive End12 := Cl (c : Client12) | Sv (s : Server12).

Definition no_output {S} (m : M S unit) : M S (option Output) := m ;;; ret None.
Definition some_output {S} (m : M S Output) : M S (option Output) := let! o := m in ret (Some o).

(** src/lib.rs:612-836: dispatch of the calls. *)
Definition client12_call (E : Env) (c : Call) : M Client12 (option Output) :=
  match c with
  | Packet p => no_output (client12_handle_packet E p)
  | Poll cap => some_output (client12_poll_output cap)
  | Tick now => no_output (client12_handle_timeout E now)
  | Send d => no_output (client12_send E d)
  | Close => no_output (client12_close E)
  end.
Definition server12_call (E : Env) (c : Call) : M Server12 (option Output) :=
  match c with
  | Packet p => no_output (server12_handle_packet E p)
  | Poll cap => some_output (server12_poll_output cap)
  | Tick now => no_output (server12_handle_timeout E now)
  | Send d => no_output (server12_send E d)
  | Close => no_output (server12_close E)
  end.
Definition end12_call (E : Env) (c : Call) (s : End12) : Reply * End12 :=
  match s with
  | Cl x => let '(r, x') := client12_call E c x in (r, Cl x')
  | Sv x => let '(r, x') := server12_call E c x in (r, Sv x')
  end.

Definition end_eng (s : End12) : Eng12 :=
  match s with Cl c => cl_eng c | Sv s => sv_eng s end.
Definition end_events (s : End12) : list LocalEvent12 :=
  match s with Cl c => cl_events c | Sv s => sv_events s end.

(** src/lib.rs:461-606: a new endpoint, in either role.  [set_active] may change
    the role before the first call. *)
Inductive start12 (E : Env) (cfg : Config) (auth : AuthMode) : End12 -> Prop :=
| start_server : forall now, start12 E cfg auth (Sv (server12_new E (eng12_new E cfg auth) now))
| start_to_client : forall s, start12 E cfg auth (Sv s) ->
    start12 E cfg auth (Cl (server12_into_client s))
| start_to_server : forall c, start12 E cfg auth (Cl c) ->
    start12 E cfg auth (Sv (client12_into_server E c)).

Definition panicked (r : Reply) : Prop := match r with Panic _ => True | _ => False end.

(** [history E s0 h s]: the calls of [h] made on [s0], with the replies listed in
    [h], lead to [s].  There is no call after a panic; calls after errors are
    allowed. *)
Inductive history (E : Env) (s0 : End12) : list (Call * Reply) -> End12 -> Prop :=
| history_nil : history E s0 [] s0
| history_snoc : forall h s c r s',
    history E s0 h s -> Forall (fun x => ~ panicked (snd x)) h ->
    end12_call E c s = (r, s') -> history E s0 (h ++ [(c, r)]) s'.

(** Histories from a new endpoint. *)
Definition reach12 (E : Env) (cfg : Config) (auth : AuthMode) (h : list (Call * Reply)) (s : End12)
  : Prop := exists s0, start12 E cfg auth s0 /\ history E s0 h s.

(** The outputs of a history, in order. *)
Definition outputs (h : list (Call * Reply)) : list Output :=
  flat_map (fun x => match snd x with Ok (Some o) => [o] | _ => [] end) h.
