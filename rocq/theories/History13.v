(** Histories of API calls on a DTLS 1.3 endpoint.  The calls, replies and outputs
    are those of History12.v. *)
From Verif Require Import Prelude Types Env Config Monad Timer Engine12 Client12 Engine13 Client13
  Server13 History12.

(** src/lib.rs:305-311 [Inner], the DTLS 1.3 cases. *)
Inductive End13 := XC (c : Client13) | XS (s : Server13).

(** src/lib.rs:612-836: dispatch of the calls. *)
Definition client13_call (E : Env) (c : Call) : M Client13 (option Output) :=
  match c with
  | Packet p => no_output (client13_handle_packet E p)
  | Poll cap => some_output (client13_poll_output cap)
  | Tick now => no_output (client13_handle_timeout E now)
  | Send d => no_output (client13_send E d)
  | Close => no_output (client13_close E)
  end.
Definition server13_call (E : Env) (c : Call) : M Server13 (option Output) :=
  match c with
  | Packet p => no_output (server13_handle_packet E p)
  | Poll cap => some_output (server13_poll_output cap)
  | Tick now => no_output (server13_handle_timeout E now)
  | Send d => no_output (server13_send E d)
  | Close => no_output (server13_close E)
  end.
Definition end13_call (E : Env) (c : Call) (s : End13) : Reply * End13 :=
  match s with
  | XC x => let '(r, x') := client13_call E c x in (r, XC x')
  | XS x => let '(r, x') := server13_call E c x in (r, XS x')
  end.

Definition end13_eng (s : End13) : Eng13 :=
  match s with XC c => xc_eng c | XS s => xs_eng s end.
Definition end13_events (s : End13) : list LocalEvent12 :=
  match s with XC c => xc_events c | XS s => xs_events s end.

(** src/lib.rs:461-606: a new endpoint, in either role.  [set_active] may change the
    role before the first call. *)
Inductive fresh13 (E : Env) (cfg : Config) (cert : bytes) (key : KeyInfo) : End13 -> Prop :=
| fresh13_server : forall now auto,
    fresh13 E cfg cert key (XS (server13_new E (eng13_new E cfg cert key false) now auto))
| fresh13_to_client : forall s, fresh13 E cfg cert key (XS s) ->
    fresh13 E cfg cert key (XC (server13_into_client s))
| fresh13_to_server : forall c, fresh13 E cfg cert key (XC c) ->
    fresh13 E cfg cert key (XS (client13_into_server E c)).

(** src/lib.rs:640-660: an auto-sensing client that determined the version continues
    as a DTLS 1.3 client made from the hello it sent. *)
Inductive start13 (E : Env) (cfg : Config) (cert : bytes) (key : KeyInfo) : End13 -> Prop :=
| start13_fresh : forall s, fresh13 E cfg cert key s -> start13 E cfg cert key s
| start13_hybrid : forall random fragment kx now c,
    client13_from_hybrid E random fragment kx cfg cert key now = (Ok tt, c) ->
    start13 E cfg cert key (XC c).

(** [history13 E s0 h s]: the calls of [h] made on [s0], with the replies listed in
    [h], lead to [s].  There is no call after a panic; calls after errors are
    allowed. *)
Inductive history13 (E : Env) (s0 : End13) : list (Call * Reply) -> End13 -> Prop :=
| history13_nil : history13 E s0 [] s0
| history13_snoc : forall h s c r s',
    history13 E s0 h s -> Forall (fun x => ~ panicked (snd x)) h ->
    end13_call E c s = (r, s') -> history13 E s0 (h ++ [(c, r)]) s'.

(** Histories from a new endpoint. *)
Definition reach13 (E : Env) (cfg : Config) (cert : bytes) (key : KeyInfo)
  (h : list (Call * Reply)) (s : End13) : Prop :=
  exists s0, start13 E cfg cert key s0 /\ history13 E s0 h s.
