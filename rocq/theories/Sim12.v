(** Running the DTLS 1.2 model: a client and a server connected by a lossless
    network.  Used by examples only. *)
From Verif Require Import Prelude Types Env Config Context12 Monad Timer Engine12 Client12 Server12
  Toy.

(** The value and the state of a call that succeeds. *)
Definition packets (os : list Output) : list bytes :=
  flat_map (fun o => match o with OPacket p => [p] | _ => [] end) os.
Definition others (os : list Output) : list Output :=
  filter (fun o => match o with OPacket _ => false | _ => true end) os.

(** Poll until [OTimeout] (at most [n] times). *)
Fixpoint drain {S} (poll : M S Output) (n : nat) (s : S) : list Output * S :=
  match n with
  | O => ([], s)
  | S k => match poll s with
           | (Ok (OTimeout _), s') => ([], s')
           | (Ok o, s') => let '(os, s'') := drain poll k s' in (o :: os, s'')
           | (_, s') => ([], s')
           end
  end.

Definition deliver {S} (hp : bytes -> M S unit) (ps : list bytes) (s : S) : S :=
  fold_left (fun s p => snd (hp p s)) ps s.

(** [n] rounds: the client's packets go to the server and vice versa.  The result
    lists the events each side reported, in order. *)
Fixpoint pump12 (E : Env) (n : nat) (c : Client12) (s : Server12)
  : list Output * list Output * Client12 * Server12 :=
  match n with
  | O => ([], [], c, s)
  | S k =>
    let '(oc, c) := drain (client12_poll_output 3000) 200 c in
    let s := deliver (server12_handle_packet E) (packets oc) s in
    let '(os, s) := drain (server12_poll_output 3000) 200 s in
    let c := deliver (client12_handle_packet E) (packets os) c in
    let '(ec, es, c, s) := pump12 E k c s in
    (others oc ++ ec, others os ++ es, c, s)
  end.

Definition toy_client12 (cfg : Config) (auth : AuthMode) (now : N) : Client12 :=
  snd (client12_handle_timeout toy now (client12_new (eng12_new toy cfg auth) now)).
Definition toy_server12 (cfg : Config) (auth : AuthMode) (now : N) : Server12 :=
  snd (server12_handle_timeout toy now
         (server12_new toy (set_en_orc 1000 (eng12_new toy cfg auth)) now)).
