(** C17, DTLS 1.2: what an endpoint sends fits the configured MTU. *)
From Verif Require Import Prelude PreludeFacts Types Codec Codec12 Record12 Monad MonadFacts Timer Env Toy
  Config Aead Prf Window Context12 Engine12 Client12 Server12 Engine12Frame Send12Proofs History12
  History12Facts Queue12Proofs View12 Poll12Proofs Timer12Proofs Tx12Proofs Keys12 Phase12 Mtu12 Conn12.

(** The MTU leaves room for the headers, the protection and one byte of a handshake
    message, whichever suite the provider offers. *)
Definition room12 (E : Env) (mtu : N) : Prop :=
  25 <= mtu /\ forall cs i, find12 E cs = Some i -> 25 + N.of_nat (s12_enl i + s12_tag i) < mtu.

Lemma reach_sizes12 E cfg auth h s : seal12_len_ok E -> rand_ok E -> room12 E (c_mtu cfg) -> reach12 E cfg auth h s ->
  Forall (fits12 (c_mtu cfg)) (en_tx (end_eng s)).
Proof.
  intros SL RO [R0 R1] H.
  pose proof (ph_reach E (SZ1 E (c_mtu cfg) true) (SZ1 E (c_mtu cfg) false)) as P.
  assert (Q : ph (SZ1 E (c_mtu cfg) true) (SZ1 E (c_mtu cfg) false) s).
  { eapply P; try exact H.
    - intros e [A _]. split; [exact A|discriminate].
    - intros st. apply sz_early; assumption.
    - apply sz_await; assumption.
    - apply sz_io; assumption.
    - apply sz_ns; assumption.
    - apply sz_io; assumption.
    - split; [|intros _; split; [constructor|split; reflexivity]].
      split; [reflexivity|]. split; [split; reflexivity|]. split; [split; discriminate|]. split; constructor. }
  destruct s as [c|c]; cbn [ph end_eng] in Q |- *; [unfold ph_c in Q; destruct (_ <=? 2) in Q|unfold ph_s in Q; destruct (_ =? 0) in Q]; apply Q.
Qed.

(** Every datagram, whatever was packed into it and retransmitted: it is a sequence of
    records; it is at most as long as the MTU, or it is one record that is not a handshake
    record ([fits12]).  [seal12_len_ok]: the AEAD adds its tag length; [rand_ok]: the
    random source gives as many bytes as it is asked for. *)
Theorem C17_datagrams12 : forall E cfg auth h s,
  seal12_len_ok E -> rand_ok E -> room12 E (c_mtu cfg) -> reach12 E cfg auth h s ->
  Forall (fun d => exists ws, d = concat (map w_enc ws) /\
    (len d <= c_mtu cfg \/ exists w, ws = [w] /\ w_type w <> CT_HS))
    (packets_of (outputs h) ++ en_tx (end_eng s)).
Proof.
  intros E cfg auth h s SL RO HM (s0 & H0 & H). apply Forall_app. split.
  - induction H as [|h s k r s' H IH NP C]; [constructor|].
    rewrite packets_snoc. apply Forall_app. split; [exact IH|].
    destruct r as [[o|]|e|n]; try constructor. destruct o as [p|n|t| |c|m p|p|]; try constructor; [|constructor].
    pose proof (reach_sizes12 E cfg auth h s SL RO HM) as HS. specialize (HS (ex_intro _ s0 (conj H0 H))).
    rewrite Forall_forall in HS. apply HS. eapply emitted12. exact C.
  - apply (reach_sizes12 E cfg auth h s SL RO HM). exists s0. auto.
Qed.
Print Assumptions C17_datagrams12.

(** The connected client of Conn12.v. *)
Example C17_case12 : seal12_len_ok toy /\ rand_ok toy /\ room12 toy (c_mtu config_default) /\
  (exists auth, reach12 toy config_default auth (fst cl_run) (snd cl_run)) /\
  packets_of (outputs (fst cl_run)) <> [].
Proof.
  split; [exact toy_seal12_len_ok|]. split; [exact toy_rand_ok|]. split.
  { split; [vm_compute; discriminate|]. intros cs i H. apply find_some in H. destruct H as [H _]. cbn in H. decompose [or] H; subst; try contradiction; vm_compute; reflexivity. }
  split; [eexists; exact cl_run_reach|]. vm_compute. discriminate.
Qed.
