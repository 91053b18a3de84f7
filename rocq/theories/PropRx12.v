(** C02, C04, C16, C21, C22, C23, C32, C49 and C51 for DTLS 1.2: what an endpoint
    does with received datagrams.

    Vocabulary: [reach12 E cfg auth h s]: the endpoint (client or server) is in
    state [s] after the calls and replies [h].  [received h]: the datagrams it was
    given; [record_of p raw]: [raw] is one of the records the datagram [p] is cut
    into by the length fields; [record_in pk raw]: of one of the datagrams [pk].
    [authentic12 E e raw ct ep sq d] (Rx12Facts.v): [raw] is a record of type [ct],
    epoch [ep] and number [sq] that opens to [d] under the key the peer writes
    with.  [app_data os]: the application data among the outputs [os].
    [was_connected h s]: Connected was reported in [h] or is waiting to be polled. *)
From Coq Require Import String.
Close Scope string_scope.
From Verif Require Import Prelude PreludeFacts Types Codec Codec12 Env Config Context12 Monad MonadFacts Prf Aead
  Record12 Record12Proofs Timer Window WindowProofs Engine12 Client12 Server12 Toy History12 Conn12 View12 Send12Proofs Poll12Proofs Events12
  EndFrame12 ClientInv12 ClientStep12 ServerInv12 ServerStep12 Timer12Proofs Wait12Proofs Tx12Proofs Ledger12 Runs12 Spec
  History12Facts Lift12 Keys12 Rx12Ledger Rx12Facts Open12 Rx12Runs.

Lemma reach_keys E cfg auth h s : reach12 E cfg auth h s ->
  linked E (end_eng s) /\ (en_penc (end_eng s) = true -> keyed E (end_eng s)) /\ (en_release (end_eng s) = true -> en_penc (end_eng s) = true).
Proof. intro H. apply reach_kst in H. destruct s; destruct H as (H1 & H2 & H3 & _); auto. Qed.

(** ** C02 and C21: each record once, only authentic data, only after the handshake *)

(** Once a protected record was opened, no record with the same number is opened
    later, whatever is called in between. *)
Theorem C02_opened_once12 : forall E cfg auth h1 s1 raw r e1 h2 s2 raw2 r2 e2,
  reach12 E cfg auth h1 s1 ->
  en_penc (end_eng s1) = true -> rec_parse E raw (end_eng s1) = (Ok (Some r), e1) -> r_epoch r <> 0 ->
  history E (set_end_eng e1 s1) h2 s2 ->
  en_penc (end_eng s2) = true -> rec_parse E raw2 (end_eng s2) = (Ok (Some r2), e2) -> r_epoch r2 <> 0 ->
  r_seq r2 <> r_seq r.
Proof. intros. eapply opened_once; eauto. Qed.
Print Assumptions C02_opened_once12.

(** The delivered application data are the contents of authentic records with
    pairwise different numbers, all of them among the received datagrams.  The
    hypothesis excludes received application-data records of epoch 2 and up, see
    [C21_injected_data12_refuted]. *)
Theorem C02_C21_delivered_once12_partial : forall E cfg auth h s,
  suites12_ok E -> open_shrinks E -> reach12 E cfg auth h s ->
  Forall bytes_ok (received h) ->
  (forall raw r, record_in (received h) raw -> p_parsed12 0 raw = Some r -> r_ctype r = CT_APP -> r_epoch r <= 1) ->
  exists D : list (N * bytes),
    map snd D = app_data (outputs h) /\
    NoDup (map fst D) /\
    forall n d, In (n, d) D -> exists raw, record_in (received h) raw /\ authentic12 E (end_eng s) raw CT_APP 1 n d.
Proof.
  intros E cfg auth h s SOK OS HR B Ep. pose proof (reach_keys _ _ _ _ _ HR) as (Li & K & _).
  pose proof (reach_rx E SOK OS cfg auth h s HR) as X.
  assert (X' : rxl E (received h) (outputs h) (end_eng s)) by (destruct s; destruct X as [_ X]; exact X). clear X.
  assert (G : good (received h)).
  { split; [exact B|]. exact Ep. }
  specialize (X' G). destruct (en_penc (end_eng s)) eqn:Pe.
  - destruct X' as (seen & D & (H1 & H2 & H3 & H4 & H5 & H6)). exists D. split; [exact H1|]. 
    apply Forall_app in H4. destruct H4 as [H4 _]. rewrite map_app in H5. split; [exact (sub_NoDup _ _ (sub_app_l _ _ _ (sub_refl _)) H5)|].
    intros n d Hin. rewrite Forall_forall in H4. destruct (H4 _ Hin) as (raw & R1 & R2). exists raw. split; [exact R1|].
    assert (Br : bytes_ok raw) by (eapply record_in_bytes; eauto). 
    apply opens_authentic; auto. destruct R1 as (p & _ & R1). eapply record_of_refl; eauto.
  - destruct X' as (L1 & L2 & L3 & L4). exists []. rewrite L3. repeat split; [constructor|]. intros n d [].
Qed.
Print Assumptions C02_C21_delivered_once12_partial.

(** Enumerating the records of a datagram and opening them, for the examples. *)
Fixpoint cuts (fuel : nat) (p : bytes) : list bytes :=
  match fuel with
  | O => []
  | S f => if Nat.leb 13 (length p) && Nat.leb (cut p) (length p) then firstn (cut p) p :: cuts f (skipn (cut p) p) else []
  end.
Lemma cuts_spec p raw : record_of p raw -> forall f, (length p <= f)%nat -> In raw (cuts f p).
Proof.
  induction 1 as [p H1 H2|p raw H1 H2 H IH]; intros f Hf; (destruct f as [|f]; [lia|]); cbn [cuts];
    (destruct (Nat.leb_spec 13 (length p)) as [_|?]; [|lia]); (destruct (Nat.leb_spec (cut p) (length p)) as [_|?]; [|lia]); cbn [andb].
  - left. reflexivity.
  - right. apply IH. rewrite skipn_length. unfold cut in *. lia.
Qed.
Definition open_with (E : Env) (e : Eng12) (raw : bytes) : option bytes :=
  match p_parsed12 0 raw, peer_iv e with
  | Some r, Some iv =>
    match record_nonce (en_enl e) iv (r_epoch r) (r_seq r) (firstn (en_enl e) (r_frag r)) with
    | Some nonce => cipher_open E (peer_cipher e) nonce (aad12 (r_ctype r) (r_epoch r) (r_seq r) (r_length r - u16 (N.of_nat (en_minp e)))) (skipn (13 + en_enl e) raw)
    | None => None
    end
  | _, _ => None
  end.
Lemma open_with_spec E e raw ct ep sq d : opens E e raw ct ep sq d -> open_with E e raw = Some d.
Proof. intros (r & iv & nonce & O1 & <- & <- & <- & O5 & O6 & O7 & O8 & O9). unfold open_with. rewrite O1, O6, O7. exact O8. Qed.
Definition none_opens_to (E : Env) (e : Eng12) (pk : list bytes) (d : bytes) : bool :=
  forallb (fun p => forallb (fun raw => match open_with E e raw with Some x => negb (beqb x d) | None => true end) (cuts (length p) p)) pk.
Lemma none_opens_to_spec E e pk d : linked E e -> Forall bytes_ok pk -> none_opens_to E e pk d = true ->
  forall raw ct ep sq, record_in pk raw -> ~ authentic12 E e raw ct ep sq d.
Proof.
  intros Li B H raw ct ep sq (p & Hp & Hr) A. unfold none_opens_to in H. rewrite forallb_forall in H. specialize (H p Hp).
  rewrite forallb_forall in H. specialize (H raw (cuts_spec p raw Hr _ (Nat.le_refl _))).
  rewrite Forall_forall in B. rewrite (open_with_spec E e raw ct ep sq d) in H; [rewrite beqb_refl in H; discriminate|].
  apply authentic_opens; auto. eapply record_of_bytes; [apply B, Hp|exact Hr].
Qed.
Lemma bytes_okb l : forallb (forallb (fun b => b <? 256)) l = true -> Forall bytes_ok l.
Proof.
  intro H. apply Forall_forall. intros p Hp. rewrite forallb_forall in H. specialize (H p Hp). rewrite forallb_forall in H.
  apply Forall_forall. intros b Hb. apply N.ltb_lt, H, Hb.
Qed.

(** An attacker without keys gets data delivered: it splits the server's last flight
    and puts an application-data record of epoch 2 behind the ChangeCipherSpec.  The
    run is of the model; every output is delivered from a received datagram that is
    not authentic. *)
Theorem C21_injected_data12_refuted : exists E cfg auth h s d raw r,
  suites12_ok E /\ open_shrinks E /\ reach12 E cfg auth h s /\ Forall bytes_ok (received h) /\
  was_connected h s /\ In d (app_data (outputs h)) /\
  record_in (received h) raw /\ p_parsed12 0 raw = Some r /\ r_frag r = d /\ r_epoch r = 2 /\
  forall raw' ct ep sq, record_in (received h) raw' -> ~ authentic12 E (end_eng s) raw' ct ep sq d.
Proof.
  set (d := [101; 118; 105; 108] : bytes).
  set (r := mkRec 23 65277 2 0 4 d [] false evil).
  exists toy, config_default, (toy_auth 7), (fst evil_run), (snd evil_run), d, evil, r.
  assert (B : Forall bytes_ok (received (fst evil_run))) by (apply bytes_okb; vm_compute; reflexivity).
  split; [exact toy_suites12_ok|]. split; [exact toy_open_shrinks|]. split; [exact evil_run_reach|]. split; [exact B|].
  split; [exact (proj2 (was_connected_release _ _ _ _ _ evil_run_reach) (eq_refl true <: en_release (end_eng (snd evil_run)) = true))|].
  split. { assert (H : existsb (beqb d) (app_data (outputs (fst evil_run))) = true) by (vm_compute; reflexivity).
    apply existsb_exists in H. destruct H as (x & Hx & H). apply beqb_eq in H. subst x. exact Hx. }
  split. { assert (H : exists p, In p (received (fst evil_run)) /\ p = [20;254;253;0;0;0;0;0;0;0;6;0;1;1] ++ evil).
    { assert (H : existsb (beqb ([20;254;253;0;0;0;0;0;0;0;6;0;1;1] ++ evil)) (received (fst evil_run)) = true) by (vm_compute; reflexivity).
      apply existsb_exists in H. destruct H as (x & Hx & H). apply beqb_eq in H. exists x. split; [exact Hx|symmetry; exact H]. }
    destruct H as (p & Hp & ->). eexists. split; [exact Hp|]. apply record_next; [cbn; lia|vm_compute; lia|].
    replace (skipn (cut ([20;254;253;0;0;0;0;0;0;0;6;0;1;1] ++ evil)) ([20;254;253;0;0;0;0;0;0;0;6;0;1;1] ++ evil)) with evil by (vm_compute; reflexivity).
    assert (X : record_of evil (firstn (cut evil) evil)) by (apply record_here; [cbn; lia|vm_compute; lia]).
    replace (firstn (cut evil) evil) with evil in X by (vm_compute; reflexivity). exact X. }
  split; [vm_compute; reflexivity|]. split; [reflexivity|]. split; [reflexivity|].
  apply none_opens_to_spec; [exact (proj1 (reach_keys _ _ _ _ _ evil_run_reach))|exact B|].
  vm_compute. reflexivity.
Qed.
Print Assumptions C21_injected_data12_refuted.

(** No application data before Connected. *)
Theorem C21_not_before_connected12 : forall E cfg auth h s, reach12 E cfg auth h s ->
  ~ was_connected h s -> app_data (outputs h) = [].
Proof.
  intros E cfg auth h s HR NW.
  assert (X : app_data (outputs h) = [] \/ en_release (end_eng s) = true).
  { destruct HR as (s0 & H0 & H). clear NW. induction H as [|h s c r s' H IH NP Hc]; [left; reflexivity|].
    assert (EQ : app_data (outputs (h ++ [(c, r)])) = app_data (outputs h) ++ app_data (output_in r)) by (unfold outputs; rewrite flat_map_app, app_data_app; cbn [flat_map fst snd]; rewrite app_nil_r; reflexivity).
    rewrite EQ.
    destruct IH as [IH|IH]; [|right; exact (lf_end_call E _ (rel_frame E) _ _ _ _ Hc IH)]. rewrite IH. cbn [app].
    destruct (en_release (end_eng s)) eqn:R; [right; exact (lf_end_call E _ (rel_frame E) _ _ _ _ Hc R)|left].
    destruct (match c with Poll _ => true | _ => false end) eqn:Hp.
    - destruct c; try discriminate. rewrite poll_unfold in Hc. destruct (end_events s) as [|[| |m x] l].
      + assert (W : wp (eng12_poll_output cap (end_now s)) (fun o _ => match o with Ok o => app_data [o] = [] | _ => True end) (end_eng s)).
        { unfold eng12_poll_output. apply wp_bind, wp_modify, wp_bind. unfold poll_app_data at 1. apply wp_bind, wp_get.
          replace (en_release (set_en_rx _ _)) with false by (symmetry; exact R). cbn [negb]. apply wp_ret. unfold poll_packet_tx. wps; reflexivity. }
        unfold wp in W. destruct (eng12_poll_output cap (end_now s) (end_eng s)) as [[o|x|x] e]; cbn [fst] in W; injection Hc as <- _; auto.
      + destruct (end_certs s); [|destruct (_ <=? _)]; injection Hc as <- _; reflexivity.
      + injection Hc as <- _; reflexivity.
      + injection Hc as <- _; reflexivity.
    - rewrite (nonpoll_no_output E c s r s'); [reflexivity| |exact Hc]. destruct c; cbn; auto; discriminate. }
  destruct X as [X|X]; [exact X|]. exfalso. apply NW, (was_connected_release _ _ _ _ _ HR), X.
Qed.
Print Assumptions C21_not_before_connected12.

(** The hypotheses hold of a client that received two data records; it delivered both. *)
Example C21_delivered_example :
  reach12 toy config_default (toy_auth 7) (fst data_run) (snd data_run) /\
  app_data (outputs (fst data_run)) = [[5; 6]; [7]] /\ Forall bytes_ok (received (fst data_run)) /\
  forall raw r, record_in (received (fst data_run)) raw -> p_parsed12 0 raw = Some r -> r_ctype r = CT_APP -> r_epoch r <= 1.
Proof.
  split; [exact data_run_reach|]. split; [vm_compute; reflexivity|].
  split; [apply bytes_okb; vm_compute; reflexivity|].
  assert (H : forallb (fun p => forallb (fun raw => match p_parsed12 0 raw with Some r => r_epoch r <=? 1 | None => true end) (cuts (length p) p)) (received (fst data_run)) = true) by (vm_compute; reflexivity).
  intros raw r (p & Hp & Hr) P _. rewrite forallb_forall in H. specialize (H p Hp). rewrite forallb_forall in H.
  specialize (H raw (cuts_spec p raw Hr _ (Nat.le_refl _))). rewrite P in H. apply N.leb_le, H.
Qed.

(** ** C04: records that do not authenticate *)

(** With receive protection on, a datagram with no authentic record and no
    unprotected handshake record leaves the whole connection state (windows,
    queues, timers) as it was. *)
Theorem C04_unauthenticated_no_change12 : forall E cfg auth h s p,
  suites12_ok E -> reach12 E cfg auth h s -> en_penc (end_eng s) = true -> bytes_ok p ->
  (forall raw ct ep sq d, record_of p raw -> ~ authentic12 E (end_eng s) raw ct ep sq d) ->
  (forall raw, record_of p raw -> ~ plain_handshake raw) ->
  exists o, eng12_parse_packet E p (end_eng s) = (o, end_eng s) /\
    (o = Ok tt \/ o = Err ETransient \/ (o = Err ECrypto /\ ~ was_connected h s)).
Proof.
  intros E cfg auth h s p SOK HR Pe B NA NP. pose proof (reach_keys _ _ _ _ _ HR) as (Li & K & _).
  pose proof (parse_garbage E SOK p _ Pe Li (K Pe) B NA NP) as W. unfold wp in W.
  destruct (eng12_parse_packet E p (end_eng s)) as [o e']. cbn [fst snd] in W. destruct W as [-> W]. exists o. split; [reflexivity|].
  destruct W as [W|[W|[W R]]]; auto. right; right. split; [exact W|]. intro C. apply (was_connected_release _ _ _ _ _ HR) in C.
  unfold end_release in C. congruence.
Qed.
Print Assumptions C04_unauthenticated_no_change12.

(** One record at a time: an unauthentic protected record changes nothing. *)
Theorem C04_unauthenticated_record12 : forall E cfg auth h s raw r,
  suites12_ok E -> reach12 E cfg auth h s -> en_penc (end_eng s) = true -> bytes_ok raw -> record_of raw raw ->
  p_parsed12 0 raw = Some r -> r_epoch r <> 0 ->
  (forall ct ep sq d, ~ authentic12 E (end_eng s) raw ct ep sq d) ->
  exists o, rec_parse E raw (end_eng s) = (o, end_eng s) /\ (o = Ok None \/ o = Err ECrypto).
Proof.
  intros E cfg auth h s raw r SOK HR Pe B Rof P Ep NA. pose proof (reach_keys _ _ _ _ _ HR) as (Li & K & _).
  pose proof (rec_parse_garbage E SOK raw _ Pe Li (K Pe) B Rof NA) as W. unfold wp in W.
  destruct (rec_parse E raw (end_eng s)) as [o e']. cbn [fst snd] in W. destruct W as [-> W]. exists o. split; [reflexivity|].
  destruct o as [[q|]|x|x]; auto; [|destruct W as [-> _]; auto|destruct W]. destruct W as [W1 W2]. rewrite P in W2. injection W2 as <-. contradiction.
Qed.
Print Assumptions C04_unauthenticated_record12.

(** ** C32: garbage on an established connection *)

Definition idle (s : End12) : Prop := en_cn_recv (end_eng s) = true -> end_closed s = true.

Lemma connected_settled E cfg auth h s : reach12 E cfg auth h s -> Forall (fun x => ~ panicked (snd x)) h ->
  was_connected h s -> idle s -> settled s.
Proof.
  intros HR NP W I. pose proof (proj2 (reach_J E _ _ _ _ HR) NP) as Q. apply (was_connected_release _ _ _ _ _ HR) in W.
  pose proof (reach_end_inv _ _ _ _ _ HR) as V. unfold settled, idle, Qe, end_release in *.
  destruct (en_cn_recv (end_eng s)) eqn:C; [left; apply I; reflexivity|].
  destruct s as [c|c]; cbn [end_eng end_closed end_established inv_end] in *.
  - destruct (c_rank (cl_state c) <? 15) eqn:L; [apply N.ltb_lt in L; rewrite (inv_low_release _ _ _ L V) in W; discriminate|].
    apply N.ltb_ge in L. destruct (cl_state c) eqn:St; cbn in L; try lia; [right|left; reflexivity]. repeat split; auto.
  - destruct (s_rank (sv_state c) <? 13) eqn:L; [apply N.ltb_lt in L; rewrite (inv_s_low_release _ _ _ L V) in W; discriminate|].
    apply N.ltb_ge in L. destruct (sv_state c) eqn:St; cbn in L; try lia; [right|left; reflexivity]. repeat split; auto.
Qed.

(** On an established connection without an unanswered close_notify, a datagram with
    no authentic record and no unprotected handshake record is answered with Ok and
    leaves the endpoint in the same state, so everything later is the same. *)
Theorem C32_garbage_ignored12_partial : forall E cfg auth h s p,
  suites12_ok E -> reach12 E cfg auth h s -> Forall (fun x => ~ panicked (snd x)) h ->
  was_connected h s -> (en_cn_recv (end_eng s) = true -> end_closed s = true) -> bytes_ok p ->
  (forall raw ct ep sq d, record_of p raw -> ~ authentic12 E (end_eng s) raw ct ep sq d) ->
  (forall raw, record_of p raw -> ~ plain_handshake raw) ->
  end12_call E (Packet p) s = (Ok None, s).
Proof.
  intros E cfg auth h s p SOK HR NP W I B NA NH. pose proof (reach_keys _ _ _ _ _ HR) as (Li & K & Rp).
  pose proof (connected_settled _ _ _ _ _ HR NP W I) as S.
  assert (R : en_release (end_eng s) = true) by (apply (was_connected_release _ _ _ _ _ HR), W).
  destruct (C04_unauthenticated_no_change12 E cfg auth h s p SOK HR (Rp R) B NA NH) as (o & Ho & Ho').
  eapply packet_quiet; eauto. destruct Ho' as [->|[->|[_ X]]]; auto; contradiction.
Qed.
Print Assumptions C32_garbage_ignored12_partial.

(** With an unprotected handshake record in the datagram: the same, unless the
    receive queue is full (an error), or the peer has not confirmed the handshake
    yet: then the datagram may make the endpoint retransmit its last flight. *)
Theorem C32_handshake_garbage12_partial : forall E cfg auth h s p,
  suites12_ok E -> reach12 E cfg auth h s -> Forall (fun x => ~ panicked (snd x)) h ->
  was_connected h s -> (en_cn_recv (end_eng s) = true -> end_closed s = true) -> bytes_ok p ->
  (forall raw ct ep sq d, record_of p raw -> ~ authentic12 E (end_eng s) raw ct ep sq d) ->
  len (en_rx (end_eng s)) < c_max_rx (en_cfg (end_eng s)) -> en_confirmed (end_eng s) = true ->
  end12_call E (Packet p) s = (Ok None, s).
Proof.
  intros E cfg auth h s p SOK HR NP W I B NA Hq Hc. pose proof (reach_keys _ _ _ _ _ HR) as (Li & K & Rp).
  pose proof (connected_settled _ _ _ _ _ HR NP W I) as S.
  assert (R : en_release (end_eng s) = true) by (apply (was_connected_release _ _ _ _ _ HR), W).
  pose proof (parse_garbage_handshake E SOK p _ (Rp R) Li (K (Rp R)) B NA) as X. unfold wp in X.
  destruct (eng12_parse_packet E p (end_eng s)) as [o e'] eqn:Hp. cbn [fst snd] in X.
  destruct X as [[-> X]|[X _]]; [|congruence]. eapply packet_quiet; eauto.
  destruct X as [->|[->|[[_ X]|[_ X]]]]; auto; [congruence|lia].
Qed.
Print Assumptions C32_handshake_garbage12_partial.

(** A forged record on the connection of the example: nothing happens. *)
Definition junk : bytes := [23; 254;253; 0;1; 0;0;0;0;0;9; 0;30] ++ repeat 0 30.
Example C32_example :
  was_connected (fst data_run) (snd data_run) /\ bytes_ok junk /\
  (forall raw ct ep sq d, record_of junk raw -> ~ authentic12 toy (end_eng (snd data_run)) raw ct ep sq d) /\
  (forall raw, record_of junk raw -> ~ plain_handshake raw) /\
  en_cn_recv (end_eng (snd data_run)) = false /\ Forall (fun x => ~ panicked (snd x)) (fst data_run).
Proof.
  assert (C : forall raw, record_of junk raw -> raw = junk).
  { intros raw Hr. apply cuts_spec with (f := length junk) in Hr; [|apply Nat.le_refl]. vm_compute in Hr. destruct Hr as [<-|[]]. reflexivity. }
  assert (B : bytes_ok junk) by (assert (X := bytes_okb [junk] eq_refl); inversion X; assumption).
  split; [exact (proj2 (was_connected_release _ _ _ _ _ data_run_reach) (eq_refl true <: en_release (end_eng (snd data_run)) = true))|].
  split; [exact B|]. split.
  - intros raw ct ep sq d Hr A. rewrite (C _ Hr) in A. apply authentic_opens in A; [|exact (proj1 (reach_keys _ _ _ _ _ data_run_reach))|exact B].
    apply open_with_spec in A.
    assert (N : match open_with toy (end_eng (snd data_run)) junk with None => true | Some _ => false end = true) by (vm_compute; reflexivity).
    rewrite A in N. discriminate.
  - split.
    + intros raw Hr. rewrite (C _ Hr). intros (r & H1 & H2 & H3). vm_compute in H1. injection H1 as <-. discriminate.
    + split; [vm_compute; reflexivity|]. apply quiet_forall. vm_compute. reflexivity.
Qed.

(** ** C23: alerts *)

(** On an established connection a fatal-alert error comes from an authentic alert
    record with that description. *)
Theorem C23_fatal_is_authentic12 : forall E cfg auth h s p d s',
  suites12_ok E -> open_shrinks E -> reach12 E cfg auth h s -> Forall (fun x => ~ panicked (snd x)) h ->
  was_connected h s -> bytes_ok p ->
  end12_call E (Packet p) s = (Err (EFatalAlert d), s') ->
  exists raw ep sq rest, record_of p raw /\ authentic12 E (end_eng s) raw CT_ALERT ep sq (2 :: d :: rest).
Proof.
  intros E cfg auth h s p d s' SOK OS HR NP W B H. pose proof (reach_keys _ _ _ _ _ HR) as (Li & K & Rp).
  apply (was_connected_release _ _ _ _ _ HR) in W. unfold end_release in W.
  eapply packet_fatal; eauto.
  pose proof (reach_end_inv _ _ _ _ _ HR) as V.
  destruct s as [c|c]; cbn [end_eng end_closed end_established inv_end] in *.
  - destruct (c_rank (cl_state c) <? 15) eqn:L; [apply N.ltb_lt in L; rewrite (inv_low_release _ _ _ L V) in W; discriminate|].
    apply N.ltb_ge in L. destruct (cl_state c); cbn in L; try lia; auto.
  - destruct (s_rank (sv_state c) <? 13) eqn:L; [apply N.ltb_lt in L; rewrite (inv_s_low_release _ _ _ L V) in W; discriminate|].
    apply N.ltb_ge in L. destruct (sv_state c); cbn in L; try lia; auto.
Qed.
Print Assumptions C23_fatal_is_authentic12.

(** With receive protection on, unprotected alerts change nothing and raise no error
    (whatever level and description). *)
Theorem C23_plain_alert_dropped12 : forall E cfg auth h s raw v sq lvl desc rest,
  suites12_ok E -> reach12 E cfg auth h s -> en_penc (end_eng s) = true ->
  is_record12 raw CT_ALERT v 0 sq (lvl :: desc :: rest) -> v = 65279 \/ v = 65277 -> bytes_ok raw ->
  eng12_parse_packet E raw (end_eng s) = (Ok tt, end_eng s).
Proof.
  intros E cfg auth h s raw v sq lvl desc rest SOK HR Pe L V B.
  destruct (layout_s_rec12 _ _ _ _ _ _ B L) as [Hraw F].
  set (fr := lvl :: desc :: rest) in *.
  assert (Hp : p_parsed12 0 raw = Some (mkRec CT_ALERT v 0 sq (len fr) fr [] false raw)).
  { unfold p_parsed12. rewrite Hraw at 1. rewrite <- (app_nil_r (s_rec12 _ _ _ _ _)).
    rewrite p_rec12_s; [reflexivity|exact F|]. split; [exact V|]. intros _. right; left. reflexivity. }
  assert (Lr : length raw = (13 + length fr)%nat).
  { rewrite Hraw. unfold s_rec12. rewrite !app_length, !be_length. lia. }
  assert (Hcut : cut raw = length raw).
  { unfold cut. rewrite Lr, Hraw. unfold s_rec12.
    replace (firstn 2 (skipn 11 (be 1 CT_ALERT ++ be 2 v ++ be 2 0 ++ be 6 sq ++ be 2 (len fr) ++ fr))) with (be 2 (len fr)) by reflexivity.
    destruct F as (_ & _ & _ & _ & F). rewrite unbe_be_small by (cbn; lia). unfold len. lia. }
  clearbody fr. clear Hraw F L.
  unfold eng12_parse_packet, records_parse.
  assert (Hl : parse_loop E (length raw) 8 raw (end_eng s) = (Ok [mkRec CT_ALERT v 0 sq (len fr) fr [] false raw], end_eng s)).
  { destruct raw as [|b raw'] eqn:Hq; [discriminate|]. rewrite <- Hq in *. destruct (length raw) as [|fuel] eqn:Hf; [lia|].
    rewrite Hq. cbn [parse_loop]. rewrite <- Hq, Hf. unfold HEADER_LEN at 1. destruct (Nat.ltb_spec (S fuel) 13) as [?|_]; [lia|]. cbv zeta.
    change ((HEADER_LEN + N.to_nat (unbe (firstn 2 (skipn 11 raw))))%nat) with (cut raw). rewrite Hcut.
    destruct (Nat.ltb_spec (S fuel) (S fuel)) as [?|_]; [lia|]. rewrite <- Hf, firstn_all, skipn_all.
    unfold bind at 1. unfold rec_parse at 1. rewrite Hp. unfold bind at 1, get. cbn [r_epoch N.eqb orb]. unfold ret at 1. destruct fuel; reflexivity. }
  unfold bind at 1, bind at 1. rewrite Hl. cbn [classify_all]. unfold classify_record, bind, get, ret. cbn [r_ctype r_epoch]. rewrite Pe. reflexivity.
Qed.
Print Assumptions C23_plain_alert_dropped12.

(** Before receive protection is on, an unprotected fatal alert is an error that names it. *)
Theorem C23_early_alert_reported12 : forall E s raw v sq desc rest,
  en_penc (end_eng s) = false -> bytes_ok raw ->
  is_record12 raw CT_ALERT v 0 sq (2 :: desc :: rest) -> v = 65279 \/ v = 65277 ->
  end12_call E (Packet raw) s = (Err (EFatalAlert desc), s).
Proof.
  intros E s raw v sq desc rest Pe B L V.
  destruct (layout_s_rec12 _ _ _ _ _ _ B L) as [Hraw F].
  assert (Hp : p_parsed12 0 raw = Some (mkRec CT_ALERT v 0 sq (len (2 :: desc :: rest)) (2 :: desc :: rest) [] false raw)).
  { unfold p_parsed12. rewrite Hraw at 1. rewrite <- (app_nil_r (s_rec12 _ _ _ _ _)).
    rewrite p_rec12_s; [reflexivity|exact F|]. split; [exact V|]. intros _. right; left. reflexivity. }
  assert (Lr : length raw = (13 + length (2%N :: desc :: rest))%nat).
  { rewrite Hraw. unfold s_rec12. rewrite !app_length, !be_length. lia. }
  assert (Hcut : cut raw = length raw).
  { unfold cut. rewrite Lr, Hraw. unfold s_rec12. set (fr := 2 :: desc :: rest) in *.
    replace (firstn 2 (skipn 11 (be 1 CT_ALERT ++ be 2 v ++ be 2 0 ++ be 6 sq ++ be 2 (len fr) ++ fr))) with (be 2 (len fr)) by reflexivity.
    destruct F as (_ & _ & _ & _ & F). rewrite unbe_be_small by (cbn; lia). unfold len. lia. }
  assert (Hl : parse_loop E (length raw) 8 raw (end_eng s) = (Ok [mkRec CT_ALERT v 0 sq (len (2 :: desc :: rest)) (2 :: desc :: rest) [] false raw], end_eng s)).
  { set (fr := 2 :: desc :: rest) in *. clearbody fr. clear Hraw F L.
    destruct raw as [|b raw'] eqn:Hq; [discriminate|]. rewrite <- Hq in *. destruct (length raw) as [|fuel] eqn:Hf; [lia|].
    rewrite Hq. cbn [parse_loop]. rewrite <- Hq, Hf. unfold HEADER_LEN at 1. destruct (Nat.ltb_spec (S fuel) 13) as [?|_]; [lia|]. cbv zeta.
    change ((HEADER_LEN + N.to_nat (unbe (firstn 2 (skipn 11 raw))))%nat) with (cut raw). rewrite Hcut.
    destruct (Nat.ltb_spec (S fuel) (S fuel)) as [?|_]; [lia|]. unfold bind at 1. rewrite <- Hf, firstn_all, skipn_all.
    unfold rec_parse, bind, get. rewrite Hp. cbn [r_epoch N.eqb orb]. unfold ret. destruct fuel; reflexivity. }
  rewrite (packet_error E raw s (EFatalAlert desc) (end_eng s)); [destruct s; [destruct c|destruct s]; reflexivity| |discriminate].
  unfold eng12_parse_packet, records_parse, bind at 1, bind at 1. rewrite Hl. cbn [classify_all]. unfold bind at 1, classify_record, bind at 1, get.
  rewrite Pe. reflexivity.
Qed.
Print Assumptions C23_early_alert_reported12.
Example C23_early_case12 : en_penc (end_eng (new_server toy config_default (AuthCert [48; 7] (toy_key 7)) 0)) = false.
Proof. reflexivity. Qed.

(** An authentic fresh fatal alert is an error that names it. *)
Theorem C23_fatal_alert_reported12 : forall E cfg auth h s raw ep sq desc rest,
  suites12_ok E -> reach12 E cfg auth h s -> en_penc (end_eng s) = true -> bytes_ok raw ->
  authentic12 E (end_eng s) raw CT_ALERT ep sq (2 :: desc :: rest) -> len (2 :: desc :: rest) < 65536 ->
  window_check (en_replay (end_eng s)) sq = true -> desc <> 0 ->
  exists s', end12_call E (Packet raw) s = (Err (EFatalAlert desc), s').
Proof.
  intros E cfg auth h s raw ep sq desc rest SOK HR Pe B A Ld W Hd. pose proof (reach_keys _ _ _ _ _ HR) as (Li & K & _).
  pose proof (parse_alert E _ _ _ _ _ _ _ Pe Li B A W Ld) as P. rewrite (proj2 (N.eqb_neq desc 0) Hd) in P. cbn [N.eqb Pos.eqb] in P.
  eexists. eapply packet_error; [exact P|discriminate].
Qed.
Print Assumptions C23_fatal_alert_reported12.
Example C23_example : exists s', end12_call toy (Packet (hd [] alert_datagrams)) (snd data_run) = (Err (EFatalAlert 40), s').
Proof.
  exists (snd (end12_call toy (Packet (hd [] alert_datagrams)) (snd data_run))).
  assert (H : match fst (end12_call toy (Packet (hd [] alert_datagrams)) (snd data_run)) with Err (EFatalAlert 40) => true | _ => false end = true) by (vm_compute; reflexivity).
  destruct (end12_call toy (Packet (hd [] alert_datagrams)) (snd data_run)) as [r s']. cbn [fst snd] in *.
  destruct r as [o|x|x]; try discriminate. destruct x; try discriminate. destruct d as [|p]; try discriminate.
  repeat (destruct p as [p|p|]; try discriminate). reflexivity.
Qed.

(** ** C51: renegotiation *)

(** On an established connection, an authentic handshake record whose first message
    is not older than the next expected one is an error; it is not queued, so it is
    never processed. *)
Theorem C51_renegotiation_refused12_partial : forall E cfg auth h s raw ep sq d f fs,
  suites12_ok E -> reach12 E cfg auth h s -> was_connected h s -> bytes_ok raw ->
  authentic12 E (end_eng s) raw CT_HS ep sq d -> window_check (en_replay (end_eng s)) sq = true -> len d < 65536 ->
  p_frags12 8 d = f :: fs -> en_peer_hs (end_eng s) <= f_seq f ->
  (en_confirmed (end_eng s) = true \/ dupe_triggers_resend f = None) ->
  len (en_rx (end_eng s)) < c_max_rx (en_cfg (end_eng s)) ->
  exists s', end12_call E (Packet raw) s = (Err ERenegotiation, s') /\ en_rx (end_eng s') = en_rx (end_eng s).
Proof.
  intros E cfg auth h s raw ep sq d f fs SOK HR W B A Wc Ld Hf Hs Hd Hq. pose proof (reach_keys _ _ _ _ _ HR) as (Li & K & Rp).
  apply (was_connected_release _ _ _ _ _ HR) in W. unfold end_release in W.
  destruct (parse_renegotiation E _ _ _ _ _ _ _ (Rp W) Li B A Wc Ld Hf Hs Hd W Hq) as (e' & P & ->).
  eexists. split; [eapply packet_error; [exact P|discriminate]|]. destruct s; reflexivity.
Qed.
Print Assumptions C51_renegotiation_refused12_partial.
Example C51_example : match fst (end12_call toy (Packet (hd [] reneg_datagrams)) (snd data_run)) with Err ERenegotiation => true | _ => false end = true.
Proof. vm_compute. reflexivity. Qed.

(** ** C22: close_notify *)

(** After an authentic close_notify was received (the flag is set by it, see below),
    only application data that was in the queue is still delivered. *)
Theorem C22_no_later_data12 : forall E cfg auth h s h2 s2,
  reach12 E cfg auth h s -> en_cn_recv (end_eng s) = true -> en_penc (end_eng s) = true ->
  history E s h2 s2 ->
  sub (app_data (outputs h2)) (map snd (app_items (en_rx (end_eng s)))).
Proof.
  intros E cfg auth h s h2 s2 HR C P H. destruct (history_after E s h2 s2 H C P) as (_ & _ & X). eapply sub_app_l, X.
Qed.
Print Assumptions C22_no_later_data12.

Theorem C22_close_noted12 : forall E cfg auth h s raw ep sq lvl rest,
  suites12_ok E -> reach12 E cfg auth h s -> en_penc (end_eng s) = true -> bytes_ok raw ->
  authentic12 E (end_eng s) raw CT_ALERT ep sq (lvl :: 0 :: rest) -> len (lvl :: 0 :: rest) < 65536 ->
  window_check (en_replay (end_eng s)) sq = true ->
  exists e', eng12_parse_packet E raw (end_eng s) = (Ok tt, e') /\ en_cn_recv e' = true /\ en_rx e' = en_rx (end_eng s).
Proof.
  intros E cfg auth h s raw ep sq lvl rest SOK HR Pe B A Ld W. pose proof (reach_keys _ _ _ _ _ HR) as (Li & K & _).
  pose proof (parse_alert E _ _ _ _ _ _ _ Pe Li B A W Ld) as P. cbn [N.eqb] in P. eexists. split; [exact P|]. split; reflexivity.
Qed.
Print Assumptions C22_close_noted12.

(** CloseNotify is only reported after an authentic close_notify was received. *)
Theorem C22_reported_is_authentic12_partial : forall E cfg auth h s,
  suites12_ok E -> open_shrinks E -> reach12 E cfg auth h s -> Forall bytes_ok (received h) ->
  (forall raw r, record_in (received h) raw -> p_parsed12 0 raw = Some r -> r_ctype r = CT_APP -> r_epoch r <= 1) ->
  en_cn_recv (end_eng s) = true ->
  exists raw ep sq lvl rest, record_in (received h) raw /\ authentic12 E (end_eng s) raw CT_ALERT ep sq (lvl :: 0 :: rest).
Proof.
  intros E cfg auth h s SOK OS HR B Ep C. pose proof (reach_keys _ _ _ _ _ HR) as (Li & K & _).
  pose proof (reach_rx E SOK OS cfg auth h s HR) as X.
  assert (X' : rxl E (received h) (outputs h) (end_eng s)) by (destruct s; destruct X as [_ X]; exact X). clear X.
  specialize (X' (conj B Ep)). destruct (en_penc (end_eng s)) eqn:Pe; [|destruct X' as (_ & X' & _); congruence].
  destruct X' as (seen & D & (H1 & H2 & H3 & H4 & H5 & H6 & H7 & H8)). destruct (H7 C) as (raw & ep & sq & lvl & rest & R1 & R2).
  exists raw, ep, sq, lvl, rest. split; [exact R1|]. assert (Br : bytes_ok raw) by (eapply record_in_bytes; [split; eassumption|exact R1]).
  apply opens_authentic; auto. destruct R1 as (p & _ & R1). eapply record_of_refl; eauto.
Qed.
Print Assumptions C22_reported_is_authentic12_partial.

(** CloseNotify is reported at most once. *)
Definition close_notes (os : list Output) : nat := length (filter (fun o => match o with OCloseNotify => true | _ => false end) os).
Definition Rrep (a b : Eng12) : Prop := en_cn_rep a = true -> en_cn_rep b = true.
Lemma Rrep_po : preorder Rrep.
Proof. split; unfold Rrep; auto. Qed.
Lemma rep_frame E : eng_frame E Rrep.
Proof. frame_all ltac:(first [exact Rrep_po | intros; exact (fun H => H) | intros; intro; reflexivity]). Qed.


Lemma poll_note E c s r s' : end12_call E c s = (r, s') -> close_notes (output_in r) <> 0%nat ->
  en_cn_recv (end_eng s) = true /\ en_cn_rep (end_eng s) = false /\ en_cn_rep (end_eng s') = true /\ close_notes (output_in r) = 1%nat /\
  (en_release (end_eng s) = true -> app_items (en_rx (end_eng s)) = []).
Proof.
  intros H N0. destruct (match c with Poll _ => true | _ => false end) eqn:Hp.
  - destruct c; try discriminate. rewrite poll_unfold in H. destruct (end_events s) as [|[| |m x] l].
    + assert (W : wp (eng12_poll_output cap (end_now s)) (fun o e' => close_notes (match o with Ok o => [o] | _ => [] end) <> 0%nat ->
        en_cn_recv (end_eng s) = true /\ en_cn_rep (end_eng s) = false /\ en_cn_rep e' = true /\ close_notes (match o with Ok o => [o] | _ => [] end) = 1%nat /\
        (en_release (end_eng s) = true -> app_items (en_rx (end_eng s)) = [])) (end_eng s)).
      { clear. set (e := end_eng s). unfold eng12_poll_output. apply wp_bind, wp_modify.
        rewrite <- (purge_items (en_rx e)).
        assert (Tail : forall now e1, en_rx e1 = purge_handled (en_rx e) -> en_cn_recv e1 = en_cn_recv e -> en_cn_rep e1 = en_cn_rep e ->
           (en_release e = true -> app_items (purge_handled (en_rx e)) = []) ->
           wp (let! p := poll_packet_tx cap in match p with Some o => ret o | None => let! s := get in
             if en_cn_recv s && negb (en_cn_rep s) then modify (set_en_cn_rep true) ;;; ret OCloseNotify else ret (OTimeout (poll_timeout s now)) end)
           (fun o e' => close_notes (match o with Ok o => [o] | _ => [] end) <> 0%nat ->
             en_cn_recv e = true /\ en_cn_rep e = false /\ en_cn_rep e' = true /\ close_notes (match o with Ok o => [o] | _ => [] end) = 1%nat /\
             (en_release e = true -> app_items (purge_handled (en_rx e)) = [])) e1).
        { intros now e1 H1 H2 H3 H4. unfold poll_packet_tx. apply wp_bind, wp_bind, wp_get. destruct (en_tx e1) as [|p r].
          - apply wp_ret, wp_bind, wp_get. rewrite H2, H3. destruct (en_cn_recv e) eqn:A; [|apply wp_ret; intro K; destruct K; reflexivity].
            destruct (en_cn_rep e) eqn:B; [apply wp_ret; intro K; destruct K; reflexivity|]. cbn [andb negb]. apply wp_bind, wp_modify, wp_ret. intros _. repeat split; auto.
          - destruct (cap <? len p); [apply wp_ret, wp_ret; intro K; destruct K; reflexivity|]. apply wp_bind, wp_modify, wp_ret, wp_ret. intro K; destruct K; reflexivity. }
        apply wp_bind. unfold poll_app_data at 1. apply wp_bind, wp_get. cbn [en_release set_en_rx].
        destruct (en_release e) eqn:R; cbn [negb].
        - cbn [en_rx set_en_rx]. destruct (find unhandled_app (concat (purge_handled (en_rx e)))) as [r|] eqn:F.
          + cbv zeta. destruct (cap <? _); [apply wp_ret, wp_ret; intro K; destruct K; reflexivity|]. destruct (r_hs r); [|apply wp_panic; intro K; destruct K; reflexivity].
            apply wp_bind, wp_modify, wp_ret, wp_ret. intro K; destruct K; reflexivity.
          + apply wp_ret. apply Tail; try reflexivity. intros _. unfold app_items. replace (filter unhandled_app (concat (purge_handled (en_rx e)))) with (@nil Rec12); [reflexivity|]. clear -F. induction (concat (purge_handled (en_rx e))) as [|y l IH]; [reflexivity|]. cbn [find filter] in *. destruct (unhandled_app y); [discriminate|auto].
        - apply wp_ret. apply Tail; try reflexivity. intro; discriminate. }
      unfold wp in W. destruct (eng12_poll_output cap (end_now s) (end_eng s)) as [o e']. cbn [fst snd] in W. injection H as <- <-.
      assert (X : end_eng (set_end_eng e' s) = e') by (destruct s; reflexivity). rewrite X. destruct o; apply W, N0.
    + destruct (end_certs s); [|destruct (_ <=? _)]; injection H as <- _; destruct N0; reflexivity.
    + injection H as <- _; destruct N0; reflexivity.
    + injection H as <- _; destruct N0; reflexivity.
  - rewrite (nonpoll_no_output E c s r s') in N0; [destruct N0; reflexivity| |exact H]. destruct c; cbn; auto; discriminate.
Qed.

Theorem C22_reported_once12 : forall E cfg auth h s, reach12 E cfg auth h s -> (close_notes (outputs h) <= 1)%nat.
Proof.
  intros E cfg auth h s (s0 & H0 & H).
  assert (X : (close_notes (outputs h) <= 1)%nat /\ (close_notes (outputs h) <> 0%nat -> en_cn_rep (end_eng s) = true)); [|exact (proj1 X)].
  induction H as [|h s c r s' H IH NP Hc]; [split; [apply Nat.le_0_l|intro K; destruct K; reflexivity]|].
  assert (EQ : close_notes (outputs (h ++ [(c, r)])) = (close_notes (outputs h) + close_notes (output_in r))%nat).
  { unfold close_notes, outputs. rewrite flat_map_app, filter_app, app_length. cbn [flat_map fst snd]. rewrite app_nil_r. reflexivity. }
  rewrite EQ. destruct IH as [I1 I2].
  destruct (Nat.eq_dec (close_notes (output_in r)) 0) as [Z|Z].
  - rewrite Z, Nat.add_0_r. split; [exact I1|]. intro K. exact (lf_end_call E _ (rep_frame E) _ _ _ _ Hc (I2 K)).
  - destruct (poll_note E c s r s' Hc Z) as (P1 & P2 & P3 & P4 & _).
    destruct (Nat.eq_dec (close_notes (outputs h)) 0) as [Y|Y]; [|rewrite (I2 Y) in P2; discriminate].
    rewrite Y, P4. split; [apply Nat.le_refl|intros _; exact P3].
Qed.
Print Assumptions C22_reported_once12.

(** Once CloseNotify was reported on a connected endpoint, all data received before
    it has been delivered and nothing is delivered later. *)
Theorem C22_close_is_last12 : forall E cfg auth h s c s' h2 s2,
  reach12 E cfg auth h s -> was_connected h s ->
  end12_call E c s = (Ok (Some OCloseNotify), s') -> history E s' h2 s2 ->
  app_items (en_rx (end_eng s)) = [] /\ app_data (outputs h2) = [].
Proof.
  intros E cfg auth h s c s' h2 s2 HR W Hc H. apply (was_connected_release _ _ _ _ _ HR) in W. unfold end_release in W.
  pose proof (reach_keys _ _ _ _ _ HR) as (_ & _ & Rp).
  destruct (poll_note E c s _ s' Hc) as (P1 & P2 & P3 & _ & P5); [intro K; vm_compute in K; discriminate K|]. specialize (P5 W). split; [exact P5|].
  destruct (call_after E c s _ s' Hc P1 (Rp W)) as (A1 & A2 & A3). cbn [output_in app_data flat_map app] in A3. rewrite P5 in A3. cbn [map] in A3.
  destruct (history_after E s' h2 s2 H A1 A2) as (_ & _ & X). apply sub_app_l in X.
  assert (Y : map snd (app_items (en_rx (end_eng s'))) = []) by (inversion A3; reflexivity). rewrite Y in X. inversion X; reflexivity.
Qed.
Print Assumptions C22_close_is_last12.

(** A close_notify that was noted is reported as soon as nothing else is waiting. *)
Theorem C22_close_is_reported12 : forall E cap s,
  end_events s = [] -> en_tx (end_eng s) = [] -> app_items (en_rx (end_eng s)) = [] ->
  en_cn_recv (end_eng s) = true -> en_cn_rep (end_eng s) = false ->
  fst (end12_call E (Poll cap) s) = Ok (Some OCloseNotify).
Proof.
  intros E cap s H1 H2 H3 H4 H5. rewrite poll_unfold, H1.
  assert (W : fst (eng12_poll_output cap (end_now s) (end_eng s)) = Ok OCloseNotify).
  { unfold eng12_poll_output, bind at 1, modify. unfold bind at 1, poll_app_data, bind at 1, get. cbn [en_release en_rx set_en_rx].
    assert (F : find unhandled_app (concat (purge_handled (en_rx (end_eng s)))) = None).
    { destruct (find unhandled_app _) as [r|] eqn:F; [|reflexivity]. apply find_some in F. rewrite <- purge_items in H3. unfold app_items in H3.
      apply filter_In in F. destruct (filter unhandled_app (concat (purge_handled (en_rx (end_eng s))))); [destruct F|discriminate]. }
    rewrite F. replace ((if negb (en_release (end_eng s)) then ret None else ret None) (set_en_rx (purge_handled (en_rx (end_eng s))) (end_eng s)))
      with (@ret Eng12 _ (@None Output) (set_en_rx (purge_handled (en_rx (end_eng s))) (end_eng s))) by (destruct (en_release (end_eng s)); reflexivity).
    unfold ret at 1. unfold bind at 1, poll_packet_tx, bind at 1, get. cbn [en_tx set_en_rx]. rewrite H2. unfold ret at 1. unfold bind at 1.
    cbn [en_cn_recv en_cn_rep set_en_rx]. rewrite H4, H5. reflexivity. }
  destruct (eng12_poll_output cap (end_now s) (end_eng s)) as [o e]. cbn [fst] in W. rewrite W. reflexivity.
Qed.
Print Assumptions C22_close_is_reported12.

(** The run [bye_run]: data, then close_notify, reported once. *)
Example C22_example : reach12 toy config_default (toy_auth 7) (fst bye_run) (snd bye_run) /\
  close_notes (outputs (fst bye_run)) = 1%nat /\ en_cn_recv (end_eng (snd bye_run)) = true /\ en_penc (end_eng (snd bye_run)) = true /\
  app_data (outputs (fst bye_run)) <> [].
Proof. split; [exact bye_run_reach|]. split; [vm_compute; reflexivity|]. split; [vm_compute; reflexivity|]. split; [vm_compute; reflexivity|]. vm_compute. discriminate. Qed.

(** Without "connected" the claim is false: data and a close_notify that overtake the
    Finished message are opened when the Finished arrives, and CloseNotify is
    reported before Connected and before the data. *)
Theorem C22_close_before_data12_refuted : exists E cfg auth h s i j k d,
  suites12_ok E /\ reach12 E cfg auth h s /\ (i < j < k)%nat /\
  nth_error (outputs h) i = Some OCloseNotify /\ nth_error (outputs h) j = Some OConnected /\ nth_error (outputs h) k = Some (OAppData d).
Proof.
  exists toy, config_default, (toy_auth 7), (fst over_run), (snd over_run), 7%nat, 9%nat, 11%nat, [5; 6].
  split; [exact toy_suites12_ok|]. split; [exact over_run_reach|]. split; [lia|].
  split; [vm_compute; reflexivity|]. split; vm_compute; reflexivity.
Qed.
Print Assumptions C22_close_before_data12_refuted.

(** ** C49: traffic keys *)

Lemma skipn_skipn' {A} m n (l : list A) : skipn n (skipn m l) = skipn (m + n) l.
Proof. revert l. induction m as [|m IH]; intro l; [reflexivity|]. destruct l as [|a l]; [rewrite !skipn_nil; reflexivity|]. cbn [skipn Nat.add]. apply IH. Qed.

Lemma four_parts {A} k v (l : list A) : length l = (2 * k + 2 * v)%nat ->
  l = firstn k l ++ firstn k (skipn k l) ++ firstn v (skipn (2 * k) l) ++ firstn v (skipn (2 * k + v) l).
Proof.
  intro L. replace (skipn (2 * k) l) with (skipn k (skipn k l)) by (rewrite skipn_skipn'; f_equal; lia).
  replace (skipn (2 * k + v) l) with (skipn v (skipn k (skipn k l))) by (rewrite !skipn_skipn'; f_equal; lia).
  rewrite (firstn_all2 (skipn v (skipn k (skipn k l)))) by (rewrite !skipn_length; lia).
  rewrite !firstn_skipn. reflexivity.
Qed.

(** With receive protection on, the four traffic keys are cut from the key block of
    the negotiated suite, at disjoint positions that fill it. *)
Theorem C49_key_block12 : forall E cfg auth h s, reach12 E cfg auth h s -> en_penc (end_eng s) = true ->
  exists cs i ms cr sr kb ck sk civ siv,
    en_suite (end_eng s) = Some cs /\ find12 E cs = Some i /\
    k_ms (en_crypto (end_eng s)) = Some ms /\ k_crandom (en_crypto (end_eng s)) = Some cr /\ k_srandom (en_crypto (end_eng s)) = Some sr /\
    prf_tls12 E (suite12_hash cs) ms (str "key expansion"%string) (sr ++ cr) (2 * (s12_mac i + s12_key i + s12_iv i)) = Some kb /\
    skipn (2 * s12_mac i) kb = ck ++ sk ++ civ ++ siv /\
    length ck = s12_key i /\ length sk = s12_key i /\ length civ = s12_iv i /\ length siv = s12_iv i /\
    own_cipher (end_eng s) = Some (cs, if en_client (end_eng s) then ck else sk) /\
    peer_cipher (end_eng s) = Some (cs, if en_client (end_eng s) then sk else ck) /\
    own_iv (end_eng s) = Some (if en_client (end_eng s) then civ else siv) /\
    peer_iv (end_eng s) = Some (if en_client (end_eng s) then siv else civ).
Proof.
  intros E cfg auth h s HR Pe. pose proof (reach_keys _ _ _ _ _ HR) as (_ & K & _).
  destruct (K Pe) as (cs & i & ms & cr & sr & kb & K1 & K2 & K3 & K4 & K5 & K6 & K7 & K8 & K9 & K10). pose proof K6 as Lkb. apply prf_length in Lkb.
  set (m := s12_mac i) in *. set (k := s12_key i) in *. set (v := s12_iv i) in *.
  exists cs, i, ms, cr, sr, kb, (slice (2 * m) k kb), (slice (2 * m + k) k kb), (slice (2 * m + 2 * k) v kb), (slice (2 * m + 2 * k + v) v kb).
  do 6 (split; [assumption|]).
  split.
  { unfold slice. rewrite <- !(skipn_skipn' (2 * m)), <- Nat.add_assoc, <- (skipn_skipn' (2 * m)). apply four_parts. rewrite skipn_length. lia. }
  do 4 (split; [apply slice_len; lia|]).
  unfold own_cipher, peer_cipher, own_iv, peer_iv. destruct (en_client (end_eng s)); auto.
Qed.
Print Assumptions C49_key_block12.

(** Equal secrets and opposite roles: one side's write key is the other's read key. *)
Theorem C49_peers12 : forall E cfg1 auth1 h1 a cfg2 auth2 h2 b,
  reach12 E cfg1 auth1 h1 a -> reach12 E cfg2 auth2 h2 b ->
  en_penc (end_eng a) = true -> en_penc (end_eng b) = true ->
  en_client (end_eng b) = negb (en_client (end_eng a)) ->
  en_suite (end_eng b) = en_suite (end_eng a) -> k_ms (en_crypto (end_eng b)) = k_ms (en_crypto (end_eng a)) ->
  k_crandom (en_crypto (end_eng b)) = k_crandom (en_crypto (end_eng a)) ->
  k_srandom (en_crypto (end_eng b)) = k_srandom (en_crypto (end_eng a)) ->
  own_cipher (end_eng a) = peer_cipher (end_eng b) /\ peer_cipher (end_eng a) = own_cipher (end_eng b) /\
  own_iv (end_eng a) = peer_iv (end_eng b) /\ peer_iv (end_eng a) = own_iv (end_eng b).
Proof.
  intros E cfg1 auth1 h1 a cfg2 auth2 h2 b Ha Hb Pa Pb Hc Hs Hm Hr Hr2.
  pose proof (reach_keys _ _ _ _ _ Ha) as (_ & Ka & _). pose proof (reach_keys _ _ _ _ _ Hb) as (_ & Kb & _).
  destruct (Ka Pa) as (cs & i & ms & cr & sr & kb & K1 & K2 & K3 & K4 & K5 & K6 & K7 & K8 & K9 & K10).
  destruct (Kb Pb) as (cs' & i' & ms' & cr' & sr' & kb' & J1 & J2 & J3 & J4 & J5 & J6 & J7 & J8 & J9 & J10).
  rewrite J1, K1 in Hs. injection Hs as ->. rewrite K2 in J2. injection J2 as <-. rewrite J3, K3 in Hm. injection Hm as ->.
  rewrite J4, K4 in Hr. injection Hr as ->. rewrite J5, K5 in Hr2. injection Hr2 as ->. rewrite K6 in J6. injection J6 as <-.
  unfold own_cipher, peer_cipher, own_iv, peer_iv. rewrite Hc. destruct (en_client (end_eng a)); cbn [negb]; rewrite ?K7, ?K8, ?K9, ?K10; auto.
Qed.
Print Assumptions C49_peers12.

Lemma seal_tx E ct sq d e : en_tx (snd (seal_record E ct sq d e)) = en_tx e.
Proof.
  assert (W : wp (seal_record E ct sq d) (fun _ e' => en_tx e' = en_tx e) e).
  { unfold seal_record, rand_bytes, draw. wps; try reflexivity; destruct (en_enl e) as [|[|[|[|[|[|[|[|[|n]]]]]]]]]; wps; reflexivity. }
  exact W.
Qed.
Lemma seal_len E ct sq d e pl e' : suites12_ok E -> seal12_len_ok E -> rand_ok E -> linked E e -> keyed E e ->
  seal_record E ct sq d e = (Ok pl, e') -> len pl <= len d + N.of_nat (en_minp e).
Proof.
  intros SOK SL RO Li (cs & i & ms & cr & sr & kb & K1 & K2 & K3 & K4 & K5 & K6 & K7 & K8 & K9 & K10) H.
  unfold linked in Li. rewrite K1 in Li. destruct Li as (i' & L1 & L2 & L3). rewrite K2 in L1. injection L1 as <-.
  unfold seal_record, bind at 1, get in H. destruct (own_iv e) as [iv|] eqn:Hiv; [|discriminate].
  assert (Hc : exists key, own_cipher e = Some (cs, key)) by (unfold own_cipher; destruct (en_client e); eauto).
  destruct Hc as (key & Hc). rewrite Hc, L2 in H. cbn [cipher_seal] in H. rewrite L3.
  destruct (SOK _ _ K2) as [[S1 S2]|[S1 S2]]; rewrite S2 in *.
  - unfold bind at 1 in H. assert (Hrb : rand_bytes E 8 e = (Ok (e_rand E (en_orc e) 8), set_en_orc (en_orc e + 1) e)) by reflexivity. rewrite Hrb in H.
    destruct (record_nonce 8 iv 1 sq _) as [nonce|] eqn:Hn; [|discriminate].
    unfold cipher_seal in H. destruct (e_seal E cs key nonce _ _) as [c|] eqn:Hs; [|discriminate]. injection H as <- _.
    pose proof (SL _ _ _ _ _ _ _ K2 Hs). pose proof (proj1 (RO (en_orc e) 8%nat)). unfold len in *. rewrite app_length. lia.
  - unfold bind at 1, ret at 1 in H. destruct (record_nonce 0 iv 1 sq []) as [nonce|] eqn:Hn; [|discriminate].
    unfold cipher_seal in H. destruct (e_seal E cs key nonce _ _) as [c|] eqn:Hs; [|discriminate]. injection H as <- _.
    pose proof (SL _ _ _ _ _ _ _ K2 Hs). unfold len in *. cbn [app]. lia.
Qed.

(** ** C16: a record from the peer's send path opens to what was sealed *)
Theorem C16_roundtrip12 : forall E cfg1 auth1 h1 a cfg2 auth2 h2 b ct save new d a',
  suites12_ok E -> seal_open_ok E -> seal12_len_ok E -> seal_bytes_ok E -> rand_ok E ->
  reach12 E cfg1 auth1 h1 a -> reach12 E cfg2 auth2 h2 b ->
  en_penc (end_eng a) = true -> en_penc (end_eng b) = true ->
  en_client (end_eng b) = negb (en_client (end_eng a)) ->
  en_suite (end_eng b) = en_suite (end_eng a) -> k_ms (en_crypto (end_eng b)) = k_ms (en_crypto (end_eng a)) ->
  k_crandom (en_crypto (end_eng b)) = k_crandom (en_crypto (end_eng a)) ->
  k_srandom (en_crypto (end_eng b)) = k_srandom (en_crypto (end_eng a)) ->
  create_record_inner E ct 1 save new d (end_eng a) = (Ok tt, a') ->
  bytes_ok d -> ct < 256 -> en_seqn (end_eng a) < 2 ^ 48 -> len d + N.of_nat (en_minp (end_eng a)) < 65536 ->
  window_check (en_replay (end_eng b)) (en_seqn (end_eng a)) = true ->
  exists raw r, (en_tx a' = en_tx (end_eng a) ++ [raw] \/ en_tx a' = append_last raw (en_tx (end_eng a))) /\
    rec_parse E raw (end_eng b) = (Ok (Some r), after_open ct (en_seqn (end_eng a)) (end_eng b)) /\
    r_ctype r = ct /\ r_epoch r = 1 /\ r_seq r = en_seqn (end_eng a) /\ r_frag r = d.
Proof.
  intros E cfg1 auth1 h1 a cfg2 auth2 h2 b ct save new d a' SOK SO SL SB RO Ha Hb Pa Pb Hc Hs Hm Hr Hr2 H Bd Hct Hsq Ld W.
  destruct (C49_peers12 E _ _ _ _ _ _ _ _ Ha Hb Pa Pb Hc Hs Hm Hr Hr2) as (Q1 & _ & Q2 & _).
  pose proof (reach_keys _ _ _ _ _ Ha) as (La & Ka & _). pose proof (reach_keys _ _ _ _ _ Hb) as (Lb & Kb & _).
  specialize (Ka Pa). set (e := end_eng a) in *.
  unfold create_record_inner, bind at 1, get in H. change (1 <=? 1) with true in H. change (1 =? 0) with false in H. cbv iota in H.
  destruct (en_suite e) as [cs|] eqn:Hcs; [|discriminate]. unfold bind at 1, ret at 1 in H. cbv beta iota in H.
  set (e1 := if save then set_en_saved (en_saved e ++ [(ct, 1, d)]) e else e).
  assert (Hw : (when save (modify (fun s0 => set_en_saved (en_saved s0 ++ [(ct, 1, d)]) s0))) e = (Ok tt, e1)) by (unfold e1; destruct save; reflexivity).
  unfold bind at 1 in H. rewrite Hw in H. cbv zeta in H.
  destruct (negb _ && _); [discriminate|].
  unfold bind at 1 in H. destruct (seal_record E ct (en_seqn e) d e1) as [[pl|x|x] e2] eqn:S; try discriminate.
  assert (Tx : en_tx e2 = en_tx e).
  { pose proof (seal_tx E ct (en_seqn e) d e1) as T. rewrite S in T. cbn [snd] in T. rewrite T. unfold e1; destruct save; reflexivity. }
  assert (Ke1 : keyed E e1) by (unfold e1; destruct save; exact Ka).
  assert (Le1 : linked E e1) by (unfold e1; destruct save; exact La).
  assert (Pe : peers e1 (end_eng b)) by (unfold peers, e1; destruct save; repeat split; try (rewrite Hs; symmetry; exact Hcs); symmetry; assumption).
  assert (Lpl : len pl < 65536).
  { pose proof (seal_len E ct (en_seqn e) d e1 pl e2 SOK SL RO Le1 Ke1 S) as L. replace (en_minp e1) with (en_minp e) in L by (unfold e1; destruct save; reflexivity). lia. }
  destruct (sealed_authentic E SOK e1 (end_eng b) ct (en_seqn e) d pl e2 SO SL SB RO Le1 Ke1 Pe Bd Hct Hsq Lpl S) as (B1 & B2 & B3).
  destruct (rec_parse_authentic E (end_eng b) _ _ _ _ _ Pb Lb B1 B3 W B2) as (r & R & R1 & R2 & R3 & R4 & _).
  eexists _, r. split; [|split; [exact R|auto]].
  destruct (can_append _ _ _); unfold bind, modify in H; injection H as <-; cbn [en_tx set_en_tx set_en_seqn]; rewrite Tx; auto.
Qed.
Print Assumptions C16_roundtrip12.

(** The hypotheses hold of the two ends of a connection. *)
Definition same_pair := pump_log toy toy 6 (call_log toy (Tick 5) ([], new_client toy config_default (toy_auth 7) 0))
  (call_log toy (Tick 5) ([], new_server toy config_default (toy_auth 9) 0)).
Definition same_c_calls : list Call := Eval vm_compute in calls_of (fst (fst same_pair)).
Definition same_s_calls : list Call := Eval vm_compute in calls_of (fst (snd same_pair)).
Definition same_c : Log * End12 := replay toy same_c_calls (new_client toy config_default (toy_auth 7) 0).
Definition same_s : Log * End12 := replay toy same_s_calls (new_server toy config_default (toy_auth 9) 0).
Example C16_example :
  reach12 toy config_default (toy_auth 7) (fst same_c) (snd same_c) /\ reach12 toy config_default (toy_auth 9) (fst same_s) (snd same_s) /\ let a := end_eng (snd same_c) in let b := end_eng (snd same_s) in
  en_penc a = true /\ en_penc b = true /\ en_client b = negb (en_client a) /\ en_suite b = en_suite a /\ k_ms (en_crypto b) = k_ms (en_crypto a) /\ k_crandom (en_crypto b) = k_crandom (en_crypto a) /\ k_srandom (en_crypto b) = k_srandom (en_crypto a) /\ fst (create_record_inner toy CT_APP 1 false false [1; 2; 3] a) = Ok tt /\ window_check (en_replay b) (en_seqn a) = true.
Proof.
  split; [eexists; split; [apply new_client_start|]; apply replay_history; vm_compute; reflexivity|].
  split; [eexists; split; [apply new_server_start|]; apply replay_history; vm_compute; reflexivity|].
  cbv zeta. repeat (split; [vm_compute; reflexivity|]). vm_compute; reflexivity.
Qed.

(** C21 under its own name. *)
Theorem C21_delivered_once12_partial : forall E cfg auth h s,
  suites12_ok E -> open_shrinks E -> reach12 E cfg auth h s ->
  Forall bytes_ok (received h) ->
  (forall raw r, record_in (received h) raw -> p_parsed12 0 raw = Some r -> r_ctype r = CT_APP -> r_epoch r <= 1) ->
  exists D : list (N * bytes),
    map snd D = app_data (outputs h) /\
    NoDup (map fst D) /\
    forall n d, In (n, d) D -> exists raw, record_in (received h) raw /\ authentic12 E (end_eng s) raw CT_APP 1 n d.
Proof. exact C02_C21_delivered_once12_partial. Qed.
Print Assumptions C21_delivered_once12_partial.

(** ** C52: panics *)

(** Refuted: before receive protection is on, two copies of one 14-byte datagram (a
    record of epoch 1) make either endpoint panic (the assertion at
    src/dtls12/engine.rs:364 assumes that the replay window has removed duplicates,
    but the window is only consulted once protection is on). *)
Definition twice : bytes := [23; 254;253; 0;1; 0;0;0;0;0;0; 0;1; 0].
Theorem C52_duplicate_panics12_refuted : exists E cfg auth p,
  bytes_ok p /\
  (exists h s, reach12 E cfg auth h s /\ en_client (end_eng s) = true /\ received h = [p; p] /\ exists h0 n, h = h0 ++ [(Packet p, Panic n)]) /\
  (exists h s, reach12 E cfg auth h s /\ en_client (end_eng s) = false /\ received h = [p; p] /\ exists h0 n, h = h0 ++ [(Packet p, Panic n)]).
Proof.
  exists toy, config_default, (toy_auth 7), twice. split; [assert (X := bytes_okb [twice] eq_refl); inversion X; assumption|].
  set (cs := [Tick 5; Packet twice; Packet twice]). split.
  - exists (fst (replay toy cs (new_client toy config_default (toy_auth 7) 0))), (snd (replay toy cs (new_client toy config_default (toy_auth 7) 0))).
    split; [eexists; split; [apply new_client_start|]; apply replay_history; vm_compute; reflexivity|].
    split; [vm_compute; reflexivity|]. split; [vm_compute; reflexivity|].
    exists [(Tick 5, Ok None); (Packet twice, Ok None)], 364. vm_compute; reflexivity.
  - exists (fst (replay toy cs (new_server toy config_default (toy_auth 7) 0))), (snd (replay toy cs (new_server toy config_default (toy_auth 7) 0))).
    split; [eexists; split; [apply new_server_start|]; apply replay_history; vm_compute; reflexivity|].
    split; [vm_compute; reflexivity|]. split; [vm_compute; reflexivity|].
    exists [(Tick 5, Ok None); (Packet twice, Ok None)], 364. vm_compute; reflexivity.
Qed.
Print Assumptions C52_duplicate_panics12_refuted.
