(** C55: every call ends.  The loops of the implementation have no bound in their
    source; the model gives each a bound.  The theorems say that the bound is never
    what ends a loop: the result is the one of the loop without a bound, given by the
    relations [repeats], [splits12], [splits13] and [cuts] of Loops.v. *)
From Verif Require Import Prelude PreludeFacts Types Codec Codec12 Codec13 Record12 Record13 Monad MonadFacts Timer Env Config Engine12 Client12 Server12
  Engine13 Client13 Server13 Send12Proofs Send13Proofs Tx12Proofs Index13 Mtu12 Mtu13 Loops.
From Verif Require Import Toy History12 History13 Conn12 Conn13.

(** The state machine of an endpoint ([make_progress]: "loop { step; if the state is the
    same, break }") reaches its break, an error or a panic from every state. *)
Theorem C55_steps_end_client12 : forall E c, repeats (round12c E) c (c_make_progress E c).
Proof. exact ends12c. Qed.
Theorem C55_steps_end_server12 : forall E c, repeats (round12s E) c (s_make_progress E c).
Proof. exact ends12s. Qed.
Theorem C55_steps_end_client13 : forall E c, repeats (round13c E) c (x_make_progress E c).
Proof. exact ends13c. Qed.
Theorem C55_steps_end_server13 : forall E c, repeats (round13s E) c (y_make_progress E c).
Proof. exact ends13s. Qed.
Print Assumptions C55_steps_end_client12.
Print Assumptions C55_steps_end_server12.
Print Assumptions C55_steps_end_client13.
Print Assumptions C55_steps_end_server13.

(** [repeats] is a function of the state: it is the one result the loop has. *)
Lemma repeats_fun {S} (body : M S bool) s x : repeats body s x -> forall y, repeats body s y -> x = y.
Proof.
  induction 1 as [s s' H|s s' x H _ IH|s s' e H|s s' n H]; intros y Hy; inversion Hy as [a b K|a b c K L|a b c K|a b c K]; subst;
    rewrite H in K; try discriminate K; inversion K; subst; auto.
Qed.

(** Every datagram is split into records in finitely many rounds. *)
Theorem C55_datagram_ends12 : forall E packet s, exists x, splits12 E 8 packet s x /\
  records_parse E packet s = match x with (Ok rs, s1) => classify_all rs s1 | (Err e, s1) => (Err e, s1) | (Panic n, s1) => (Panic n, s1) end.
Proof.
  intros. exists (parse_loop E (length packet) 8 packet s). split; [apply ends_split12; auto|].
  unfold records_parse, bind. destruct (parse_loop _ _ _ _ _) as [[| |] ?]; reflexivity.
Qed.
Theorem C55_datagram_ends13 : forall E packet s, exists x, splits13 E 16 packet s x /\
  records_parse13 E packet s = match x with (Ok rs, s1) => classify_all13 E rs s1 | (Err e, s1) => (Err e, s1) | (Panic n, s1) => (Panic n, s1) end.
Proof.
  intros. exists (parse_loop13 E (length packet) 16 packet s). split; [apply ends_split13; auto|].
  unfold records_parse13, bind. destruct (parse_loop13 _ _ _ _ _) as [[| |] ?]; reflexivity.
Qed.
Print Assumptions C55_datagram_ends12.
Print Assumptions C55_datagram_ends13.

(** Every handshake message is cut into finitely many fragments, for every MTU, even one
    smaller than the headers of a record, every queue and every limit of the queue.
    [s2]: the state in which the cutting begins. *)
Theorem C55_fragments_end12 : forall E mt mkbody body s s1,
  mkbody s = (Ok body, s1) -> body <> [] -> (mt12_epoch mt = 0 \/ en_suite s1 <> None) ->
  exists total seq s2, en_tx s2 = en_tx s1 /\ en_cfg s2 = en_cfg s1 /\
    cuts (cut12 E mt total seq (mt12_epoch mt) (overhead s1 (mt12_epoch mt))) 0 body s2 (create_handshake E mt mkbody s).
Proof.
  intros E mt mkbody body s s1 H Hb Hs. set (total := u32 (len body)). set (seq := en_next_hs s1).
  set (s2 := set_en_next_hs (u16 (seq + 1)) (set_en_transcript (en_transcript s1 ++ s_hs_header mt total seq 0 total ++ body) s1)).
  exists total, seq, s2. do 2 (split; [reflexivity|]).
  assert (Hu : create_handshake E mt mkbody s =
    frag_loop E (length body + N.to_nat (c_max_tx (en_cfg s2)) + 2) mt total seq (mt12_epoch mt) (overhead s2 (mt12_epoch mt)) 0 body s2).
  { unfold create_handshake, bind at 1. rewrite H. unfold bind, get, modify. fold total. fold seq. fold s2.
    unfold overhead. destruct (1 <=? mt12_epoch mt) eqn:He.
    - destruct Hs as [Z|Hs]; [rewrite Z in He; discriminate He|]. destruct (en_suite s1) as [cs|]; [|congruence]. destruct body; [congruence|reflexivity].
    - destruct body; [congruence|reflexivity]. }
  rewrite Hu. change (overhead s1 (mt12_epoch mt)) with (overhead s2 (mt12_epoch mt)).
  apply ends_cut12. unfold left12. destruct (rev (en_tx s2)) as [|[|] ?]; lia.
Qed.
Theorem C55_fragments_end13 : forall E mt mkbody body s s1,
  mkbody s = (Ok body, s1) -> body <> [] -> (mt13_epoch mt = 0 \/ exists cs i, g_suite s1 = Some cs /\ find13 E cs = Some i) ->
  exists total seq prot s2, g_tx s2 = g_tx s1 /\ g_cfg s2 = g_cfg s1 /\
    cuts (cut13 E mt total seq (mt13_epoch mt) prot) 0 body s2 (create_handshake13 E mt mkbody s).
Proof.
  intros E mt mkbody body s s1 H Hb Hs. set (total := u32 (len body)). set (seq := g_next_hs s1). set (ep := mt13_epoch mt) in *.
  set (s2 := set_g_next_hs (u16 (seq + 1)) (set_g_transcript (g_transcript s1 ++ transcript13 mt total body) s1)).
  assert (Hu : exists prot, create_handshake13 E mt mkbody s = frag_loop13 E (length body + 14) mt total seq ep prot 0 body s2).
  { unfold create_handshake13, bind at 1. rewrite H. unfold bind, get, modify. fold total. fold seq. fold ep. fold s2.
    destruct (ep =? 0) eqn:He.
    - exists 0. destruct body; [congruence|reflexivity].
    - destruct Hs as [Z|(cs & i & Hc & Hi)]; [rewrite Z in He; discriminate He|]. exists (N.of_nat (s13_tag i) + 1).
      unfold suite_provider13, bind, get. change (g_suite s2) with (g_suite s1). rewrite Hc, Hi. destruct body; [congruence|reflexivity]. }
  destruct Hu as (prot & Hu). exists total, seq, prot, s2. do 2 (split; [reflexivity|]). rewrite Hu. apply ends_cut13; lia.
Qed.
Print Assumptions C55_fragments_end12.
Print Assumptions C55_fragments_end13.

(** A case: a message of 100 bytes with an MTU of 64 is cut in pieces of 39 bytes; with
    an MTU of 20 no byte fits, and the loop ends because the queue is full (DTLS 1.2) or
    the store of the flight is (DTLS 1.3, 12 records: a panic, see C45_panic). *)
Definition tiny (mtu tx : N) : Config := mkConfig mtu 30 tx true true 1000000000 4 40000000000 (2 ^ 23) None None None None.
Definition eng_of12 (x : End12) : Eng12 := match x with Cl c => cl_eng c | Sv c => sv_eng c end.
Definition eng_of13 (x : End13) : Eng13 := match x with XC c => xc_eng c | XS c => xs_eng c end.
Definition run12 (mtu tx : N) := frag_loop toy (100 + N.to_nat tx + 2) 1 100 0 0 0 0 (repeat 7 100) (eng_of12 (new_server toy (tiny mtu tx) (toy_auth 7) 0)).
Definition run13 (mtu tx : N) := frag_loop13 toy (100 + 14) 1 100 0 0 0 0 (repeat 7 100) (eng_of13 (new_server13 toy (tiny mtu tx) [48; 7] (toy_key 7) 0)).
Example C55_cases :
  (fst (run12 64 10) = Ok tt /\ map len (en_tx (snd (run12 64 10))) = [64; 64; 47]) /\
  (fst (run12 20 10) = Err ETxFull /\ map len (en_tx (snd (run12 20 10))) = repeat 25 10) /\
  (fst (run13 64 10) = Ok tt /\ map len (g_tx (snd (run13 64 10))) = [64; 64; 47]) /\
  (fst (run13 20 10) = Err ETxFull) /\ (fst (run13 20 30) = Panic 900).
Proof. vm_compute. auto 10. Qed.
(** A state in which the machine takes several rounds. *)
Example C55_rounds :
  match snd sv_run with Sv c => fst (round12s toy2 c) = Ok true | _ => False end /\
  match new_client toy config_default (toy_auth 7) 0 with Cl c => fst (round12c toy (set_cl_random (Some (repeat 5 32)) c)) = Ok false | _ => False end.
Proof. split; vm_compute; reflexivity. Qed.
