(** Running the DTLS 1.3 model: a client and a server connected by a lossless
    network.  Used by examples only. *)
From Verif Require Import Prelude Types Env Config Monad Timer Engine12 Client12 Engine13 Client13
  Server13 Toy Sim12.

(** [n] rounds: the client's packets go to the server and vice versa.  The result
    lists the events each side reported, in order. *)
Fixpoint pump13 (E : Env) (n : nat) (c : Client13) (s : Server13)
  : list Output * list Output * Client13 * Server13 :=
  match n with
  | O => ([], [], c, s)
  | S k =>
    let '(oc, c) := drain (client13_poll_output 3000) 200 c in
    let s := deliver (server13_handle_packet E) (packets oc) s in
    let '(os, s) := drain (server13_poll_output 3000) 200 s in
    let c := deliver (client13_handle_packet E) (packets os) c in
    let '(ec, es, c, s) := pump13 E k c s in
    (others oc ++ ec, others os ++ es, c, s)
  end.

Definition toy_client13 (cfg : Config) (cert : bytes) (key : KeyInfo) (now : N) : Client13 :=
  snd (client13_handle_timeout toy now (client13_new (eng13_new toy cfg cert key false) now)).
Definition toy_server13 (cfg : Config) (cert : bytes) (key : KeyInfo) (auto : bool) (now : N)
  : Server13 :=
  snd (server13_handle_timeout toy now
         (server13_new toy (set_g_orc 1000 (eng13_new toy cfg cert key false)) now auto)).
