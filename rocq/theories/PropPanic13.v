(** C52: a connected DTLS 1.3 endpoint does not panic. *)
From Verif Require Import Prelude Types Codec Codec12 Record12 Monad MonadFacts Env Config Aead AuxProofs Toy Engine12 Client12 Engine13 Client13 Server13
  History12 History13 Conn12 Conn13 Garbage13 PropGarbage13 NoPanic13 NoPanic13End.

(** C52, for a DTLS 1.3 endpoint that has reported [Connected], whatever was done with
    it before and after: no datagram makes it panic, and neither does [handle_timeout]
    at any time, sending of application data or closing.  (Beyond the property: the
    three other calls.)  Missing: the calls made during the handshake, where the
    property is false ([C52_many_fragments_panic13_refuted] below, and for DTLS 1.2
    [C52_duplicate_panics12_refuted]).

    Hypotheses on the outside: every suite of the crypto provider has a 12-byte IV, a
    key of at most 32 bytes and a hash with output; HMAC returns as many bytes as its
    hash; [slice::binary_search_by] returns an index of an equal element when it says
    so. *)
Theorem C52_connected_no_panic13_partial : forall E cfg cert key h s,
  provider13_ok E -> hmac_ok E -> bsearch_ok E ->
  reach13 E cfg cert key h s -> In OConnected (outputs h) ->
  (forall p, ~ panicked (fst (end13_call E (Packet p) s))) /\
  (forall now, ~ panicked (fst (end13_call E (Tick now) s))) /\
  (forall d, ~ panicked (fst (end13_call E (Send d) s))) /\
  ~ panicked (fst (end13_call E Close s)).
Proof.
  intros E cfg cert key h s PV HM BS R O.
  assert (K : forall k, is_poll k = false -> ~ panicked (fst (end13_call E k s))) by (intro k; eapply connected_np; eauto).
  split; [intro p; apply K; reflexivity|]. split; [intro p; apply K; reflexivity|]. split; [intro p; apply K; reflexivity|apply K; reflexivity].
Qed.
Print Assumptions C52_connected_no_panic13_partial.

(** The hypotheses are met by the client and the server of a concrete connection. *)
Lemma toy_provider_ok : provider13_ok toy /\ provider13_ok toy2.
Proof.
  split; (intros cs i H; unfold find13 in H; apply find_some in H; destruct H as [H Hc]; cbn in H; apply N.eqb_eq in Hc; destruct H as [H|[H|[H|[]]]]; subst i cs; vm_compute; repeat split; lia).
Qed.
Example C52_case13 :
  provider13_ok toy2 /\ hmac_ok toy2 /\ bsearch_ok toy2 /\
  reach13 toy2 config_default [48; 9] (toy_key 9) (fst xs_run) (snd xs_run) /\ In OConnected (outputs (fst xs_run)) /\
  provider13_ok toy /\ hmac_ok toy /\ bsearch_ok toy /\
  reach13 toy config_default [48; 7] (toy_key 7) (fst xc_run) (snd xc_run) /\ In OConnected (outputs (fst xc_run)).
Proof.
  split; [apply toy_provider_ok|]. split; [exact toy_hmac_ok|]. split; [intros t cs; exact (toy_bsearch_ok t cs)|].
  split; [exact xs_run_reach|]. split; [apply existsb_connected; vm_compute; reflexivity|].
  split; [apply toy_provider_ok|]. split; [exact toy_hmac_ok|]. split; [exact toy_bsearch_ok|].
  split; [exact xc_run_reach|]. apply existsb_connected; vm_compute; reflexivity.
Qed.

(** During the handshake C52 is false of DTLS 1.3 too.  The records of a flight are kept
    in an array of 12 ([flight_saved_records], src/dtls13/engine.rs:132), and nothing
    bounds the number of fragments a flight is cut into: a server that is configured
    with an MTU of 100 (the smallest accepted is 64; the rest of the configuration is
    the default) and has a certificate of 351 bytes panics when it gets the
    ClientHello, with its cookie, of an ordinary client.  (With an MTU of 200 it takes a
    certificate of about 1200 bytes.) *)
Definition cfg_small : Config := mkConfig 100 30 10 true true 1000000000 4 40000000000 (2 ^ 23) None None None None.
Definition cert_small : bytes := 48 :: repeat 9 350.
Definition small0 : End13 := new_server13 toy2 cfg_small cert_small (toy_key 9) 0.
Definition hello2 : bytes := match nth_error xs_calls 4 with Some (Packet p) => p | _ => [] end.
Definition is900 (r : Reply) : bool := match r with Panic 900 => true | _ => false end.
Lemma panic_case E cfg cert key cs s0 p : start13 E cfg cert key s0 -> quiet (fst (replay13 E cs s0)) = true ->
  quiet (removelast (fst (replay13 E cs s0))) = true -> is900 (fst (end13_call E (Packet p) (snd (replay13 E cs s0)))) = true ->
  exists h s, reach13 E cfg cert key h s /\ (forall c r, In (c, r) h -> ~ panicked r) /\ panicked (fst (end13_call E (Packet p) s)).
Proof.
  intros St Q Q' P. exists (fst (replay13 E cs s0)), (snd (replay13 E cs s0)). split; [apply run13_reach; assumption|]. split.
  - intros c r H. unfold quiet in Q. rewrite forallb_forall in Q. specialize (Q _ H). cbn in Q. destruct r; [intros []|intros []|discriminate].
  - revert P. destruct (fst (end13_call E (Packet p) _)); [discriminate|discriminate|]. intros _. exact I.
Qed.
Lemma small_1 : quiet (fst (replay13 toy2 (firstn 4 xs_calls) small0)) = true.
Proof. vm_compute. reflexivity. Qed.
Lemma small_2 : quiet (removelast (fst (replay13 toy2 (firstn 4 xs_calls) small0))) = true.
Proof. vm_compute. reflexivity. Qed.
Lemma small_3 : is900 (fst (end13_call toy2 (Packet hello2) (snd (replay13 toy2 (firstn 4 xs_calls) small0)))) = true.
Proof. vm_compute. reflexivity. Qed.
Lemma small_start : start13 toy2 cfg_small cert_small (toy_key 9) small0.
Proof. apply new_server13_start. Qed.
Theorem C52_many_fragments_panic13_refuted : exists E cfg cert key h s p,
  config_build E true cfg = Ok cfg /\ c_mtu cfg = 100 /\ len cert = 351 /\
  reach13 E cfg cert key h s /\ (forall c r, In (c, r) h -> ~ panicked r) /\ panicked (fst (end13_call E (Packet p) s)).
Proof.
  destruct (panic_case toy2 cfg_small cert_small (toy_key 9) (firstn 4 xs_calls) small0 hello2 small_start small_1 small_2 small_3) as (h & s & K).
  exists toy2, cfg_small, cert_small, (toy_key 9), h, s, hello2.
  split; [vm_compute; reflexivity|]. split; [reflexivity|]. split; [vm_compute; reflexivity|exact K].
Qed.
Print Assumptions C52_many_fragments_panic13_refuted.
