(** C52: when [poll_output] panics. *)
From Verif Require Import Prelude Types Env Config Codec12 Record12 Record13 Monad MonadFacts Timer Engine12
  Send12Proofs Queue12Proofs Client12 Context12 Server12 Engine13 Client13 Server13 Frame13 Toy History12 Poll12Proofs History13 Lift13 Send13Proofs
  Rx13Proofs Poll13Proofs Conn12 Conn13 PropPoll12 PropPoll13.

(** In every reachable state, whatever was received, [poll_output] panics for one reason
    only: the event due is the peer's certificate and the buffer is smaller than it.
    With a buffer that the certificate fits in the same call returns it. *)
Theorem C52_poll_panic_is_certificate12_partial : forall E cfg auth h s cap, reach12 E cfg auth h s ->
  panicked (fst (end12_call E (Poll cap) s)) ->
  exists c, cap < len c /\ forall cap', len c <= cap' -> fst (end12_call E (Poll cap') s) = Ok (Some (OPeerCert c)).
Proof.
  intros E cfg auth h s cap HR H. pose proof (reach_poll_wf _ _ _ _ _ HR) as [W1 W2].
  destruct (end12_call E (Poll cap) s) as [r s'] eqn:Hc. cbn [fst] in H. pose proof (poll_pops E s cap _ s' W1 W2 Hc) as P.
  destruct (pending s) as [|o rest] eqn:Hp; [destruct P as (t & -> & _); destruct H|].
  destruct (out_size o <=? cap) eqn:Hs; [destruct P as [-> _]; destruct H|].
  destruct o; try (destruct P as (-> & _); destruct H). cbn [out_size] in Hs. eexists. split; [apply N.leb_gt, Hs|]. intros cap' L.
  destruct (end12_call E (Poll cap') s) as [r' x'] eqn:Hc'. pose proof (poll_pops E s cap' _ x' W1 W2 Hc') as P'. rewrite Hp in P'. cbn [out_size] in P'.
  apply N.leb_le in L. rewrite L in P'. exact (proj1 P').
Qed.
Print Assumptions C52_poll_panic_is_certificate12_partial.
Theorem C52_poll_panic_is_certificate13_partial : forall E cfg cert key h s cap, reach13 E cfg cert key h s ->
  panicked (fst (end13_call E (Poll cap) s)) ->
  exists c, cap < len c /\ forall cap', len c <= cap' -> fst (end13_call E (Poll cap') s) = Ok (Some (OPeerCert c)).
Proof.
  intros E cfg cert key h s cap HR H. pose proof (reach13_poll_wf _ _ _ _ _ _ HR) as [W1 W2].
  destruct (end13_call E (Poll cap) s) as [r s'] eqn:Hc. cbn [fst] in H. pose proof (poll13_pops E s cap _ s' W1 W2 Hc) as P.
  destruct (pending13 s) as [|o rest] eqn:Hp; [destruct P as (t & -> & _); destruct H|].
  destruct (out_size o <=? cap) eqn:Hs; [destruct P as [-> _]; destruct H|].
  destruct o; try (destruct P as (-> & _); destruct H). cbn [out_size] in Hs. eexists. split; [apply N.leb_gt, Hs|]. intros cap' L.
  destruct (end13_call E (Poll cap') s) as [r' x'] eqn:Hc'. pose proof (poll13_pops E s cap' _ x' W1 W2 Hc') as P'. rewrite Hp in P'. cbn [out_size] in P'.
  apply N.leb_le in L. rewrite L in P'. exact (proj1 P').
Qed.
Print Assumptions C52_poll_panic_is_certificate13_partial.

(** States in which the hypotheses hold are reachable in both versions. *)
Example C52_case_poll :
  (exists E cfg auth h s, reach12 E cfg auth h s /\ panicked (fst (end12_call E (Poll 0) s))) /\
  (exists E cfg cert key h s, reach13 E cfg cert key h s /\ panicked (fst (end13_call E (Poll 0) s))).
Proof.
  split.
  - destruct C19_certificate_buffer_refuted as (E & cfg & auth & h & s & R & P & _). exists E, cfg, auth, h, s. split; assumption.
  - destruct C19_certificate_buffer13_refuted as (E & cfg & cert & key & h & s & R & P & _). exists E, cfg, cert, key, h, s. split; assumption.
Qed.
