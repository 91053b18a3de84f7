(** What a DTLS 1.2 endpoint puts on the wire: invariants of the datagrams already
    handed out together with the send queue. *)
From Coq Require Import Sorted.
From Verif Require Import Prelude PreludeFacts Types Codec Codec12 Record12 Monad MonadFacts Timer Env
  Config Aead Prf Window Context12 Engine12 Client12 Server12 Engine12Frame Send12Proofs History12
  History12Facts Queue12Proofs View12 Poll12Proofs Timer12Proofs.

(** ** Invariants of the emitted datagrams and the engine *)

Record wire_frame (E : Env) (T : list bytes -> Eng12 -> Prop) : Prop := {
  wf_step : forall em, step_frame E (fun a b => T em a -> T em b);
  wf_client : forall em v s, T em s -> T em (set_en_client v s);
  wf_abort : forall em, pres (fun a b => T em a -> T em b) eng12_abort;
  wf_parse : forall em p, pres (fun a b => T em a -> T em b) (eng12_parse_packet E p);
  wf_timeout : forall em now, pres (fun a b => T em a -> T em b) (eng12_handle_timeout E now);
  wf_rx : forall em v s, T em s -> T em (set_en_rx v s);
  wf_cn_rep : forall em v s, T em s -> T em (set_en_cn_rep v s);
  wf_sent : forall em p l s, en_tx s = p :: l -> T em s -> T (em ++ [p]) (set_en_tx l s) }.

Section NoPoll.
Variable E : Env.
Variable R : Eng12 -> Eng12 -> Prop.
Hypothesis F : step_frame E R.
Hypothesis F_abort : pres R eng12_abort.
Hypothesis F_parse : forall p, pres R (eng12_parse_packet E p).
Hypothesis F_timeout : forall now, pres R (eng12_handle_timeout E now).
Let PO : preorder R := ef_po _ _ F.

Ltac engleaf :=
  first [apply (ef_create_record _ _ F) | apply F_abort | apply F_parse | apply F_timeout
        | apply (lf_random_time E R F) ].
Ltac cleaf :=
  first [ assumption
        | apply (lf_ceng R); solve [presauto PO engleaf]
        | apply pres_modify; intro; apply PO ].
Ltac sleaf :=
  first [ assumption
        | apply (lf_seng R); solve [presauto PO engleaf]
        | apply pres_modify; intro; apply PO ].

Lemma np_call c s r s' : (forall cap, c <> Poll cap) -> end12_call E c s = (r, s') -> R (end_eng s) (end_eng s').
Proof.
  intros NT.
  assert (HC : forall x, RC R x (snd (client12_call E c x))).
  { change (pres (RC R) (client12_call E c)).
    destruct c; try (exfalso; eapply NT; reflexivity); cbn [client12_call];
      unfold no_output, some_output, client12_handle_packet, client12_handle_timeout,
      client12_send, client12_close, c_make_progress;
    presauto (RC_po E R F) ltac:(first [apply lf_public | apply (lf_c_progress E R F) | cleaf]). }
  assert (HS : forall x, RS R x (snd (server12_call E c x))).
  { change (pres (RS R) (server12_call E c)).
    destruct c; try (exfalso; eapply NT; reflexivity); cbn [server12_call];
      unfold no_output, some_output, server12_handle_packet, server12_handle_timeout,
      server12_send, server12_close, s_make_progress;
    presauto (RS_po E R F) ltac:(first [apply lf_public | apply (lf_s_progress E R F) | sleaf]). }
  destruct s as [x|x]; cbn [end12_call].
  - specialize (HC x). destruct (client12_call E c x). intros [= <- <-]. exact HC.
  - specialize (HS x). destruct (server12_call E c x). intros [= <- <-]. exact HS.
Qed.
End NoPoll.

(** The datagram in a reply. *)
Definition packet_in (r : Reply) : list bytes :=
  match r with Ok (Some (OPacket p)) => [p] | _ => [] end.
Lemma packets_snoc h c r : packets_of (outputs (h ++ [(c, r)])) = packets_of (outputs h) ++ packet_in r.
Proof.
  unfold outputs. rewrite flat_map_app. unfold packets_of. rewrite flat_map_app. f_equal.
  destruct r as [[o|]|e|n]; try reflexivity. destruct o; reflexivity.
Qed.

Section WirePoll.
Variable E : Env.
Variable T : list bytes -> Eng12 -> Prop.
Hypothesis W_rx : forall em v s, T em s -> T em (set_en_rx v s).
Hypothesis W_cn_rep : forall em v s, T em s -> T em (set_en_cn_rep v s).
Hypothesis W_sent : forall em p l s, en_tx s = p :: l -> T em s -> T (em ++ [p]) (set_en_tx l s).

Lemma wire_poll em cap s r s' : end12_call E (Poll cap) s = (r, s') ->
  T em (end_eng s) -> T (em ++ packet_in r) (end_eng s').
Proof.
  rewrite poll_unfold. intros H HT.
  assert (K : forall l, end_eng (set_end_events l s) = end_eng s) by (destruct s; reflexivity).
  destruct (end_events s) as [|[| |m p] l].
  - unfold eng12_poll_output, poll_app_data, poll_packet_tx, bind, get, modify, ret, panic in H.
    set (e1 := set_en_rx (purge_handled (en_rx (end_eng s))) (end_eng s)) in *.
    assert (T1 : T em e1) by (apply W_rx; exact HT). clearbody e1.
    destruct (negb (en_release e1)).
    2: destruct (find unhandled_app (concat (en_rx e1))) as [x|].
    2: { destruct (cap <? _); [|destruct (r_hs x)]; injection H as <- <-; rewrite end_eng_set_eng; cbn [packet_in]; rewrite app_nil_r;
         first [exact T1 | apply W_rx; exact T1]. }
    all: ecbn_in H; destruct (en_tx e1) as [|p l] eqn:Ht.
    2,4: destruct (cap <? len p); injection H as <- <-; rewrite end_eng_set_eng; cbn [packet_in]; [rewrite app_nil_r; exact T1|];
         apply W_sent; assumption.
    all: destruct (en_cn_recv e1 && negb (en_cn_rep e1)); injection H as <- <-; rewrite end_eng_set_eng; cbn [packet_in];
      rewrite app_nil_r; first [exact T1 | apply W_cn_rep; exact T1].
  - destruct (end_certs s); [|destruct (_ <=? cap)]; injection H as <- <-; rewrite K; cbn [packet_in]; rewrite app_nil_r; exact HT.
  - injection H as <- <-. rewrite K. cbn [packet_in event_value]. rewrite app_nil_r. exact HT.
  - injection H as <- <-. rewrite K. cbn [packet_in event_value]. rewrite app_nil_r. exact HT.
Qed.

End WirePoll.

Section Wire.
Variable E : Env.
Variable T : list bytes -> Eng12 -> Prop.
Hypothesis F : wire_frame E T.

Lemma nonpoll_no_packet c s r s' : (forall cap, c <> Poll cap) -> end12_call E c s = (r, s') -> packet_in r = [].
Proof.
  intros NP H. destruct s as [x|x]; cbn [end12_call] in H.
  - destruct c; cbn [client12_call] in H; try (exfalso; eapply NP; reflexivity);
      unfold no_output, bind, ret in H;
      match type of H with context [match ?m x with _ => _ end] => destruct (m x) as [[?|?|?] ?] end;
      injection H as <- <-; reflexivity.
  - destruct c; cbn [server12_call] in H; try (exfalso; eapply NP; reflexivity);
      unfold no_output, bind, ret in H;
      match type of H with context [match ?m x with _ => _ end] => destruct (m x) as [[?|?|?] ?] end;
      injection H as <- <-; reflexivity.
Qed.

Lemma wire_call em c s r s' : end12_call E c s = (r, s') ->
  T em (end_eng s) -> T (em ++ packet_in r) (end_eng s').
Proof.
  intros H HT. destruct (match c with Poll _ => true | _ => false end) eqn:Hc.
  - destruct c; try discriminate. eapply (wire_poll E T (wf_rx _ _ F) (wf_cn_rep _ _ F) (wf_sent _ _ F)); eassumption.
  - assert (NP : forall cap, c <> Poll cap) by (intros cap ->; discriminate).
    rewrite (nonpoll_no_packet c s r s' NP H), app_nil_r.
    apply (np_call E (fun a b => T em a -> T em b) (wf_step _ _ F em) (wf_abort _ _ F em) (wf_parse _ _ F em)
      (wf_timeout _ _ F em) c s r s' NP H HT).
Qed.

Lemma wire_reach cfg auth h s : (T [] (eng12_new E cfg auth)) -> reach12 E cfg auth h s ->
  T (packets_of (outputs h)) (end_eng s).
Proof.
  intros T0 (s0 & H0 & H). induction H as [|h s c r s' H IH NP C].
  - cbn. assert (K : forall o e, T [] e -> T [] (set_en_orc o e)) by (intros o e; apply (ef_orc _ _ (wf_step _ _ F []))).
    induction H0 as [now|s0 H0 IH|c0 H0 IH]; cbn in *;
      repeat first [exact T0 | exact IH | apply K | apply (wf_client _ _ F)].
  - rewrite packets_snoc. eapply wire_call; eassumption.
Qed.
End Wire.

(** ** Record numbers *)

(** A record as it was produced: what was protected and what went on the wire. *)
Record SRec := mkSRec { sr_type : N; sr_epoch : N; sr_seq : N; sr_plain : bytes; sr_wire : bytes }.
(** Its encoding, by the layout of RFC 6347 4.1: type, version, epoch, sequence
    number, length, fragment. *)
Definition encode (r : SRec) : bytes :=
  be 1 (sr_type r) ++ be 2 V_DTLS12 ++ be 2 (sr_epoch r) ++ be 6 (sr_seq r) ++
  be 2 (len (sr_wire r)) ++ sr_wire r.
(** The record numbers used in epoch [ep], in order. *)
Definition numbers (ep : N) (rs : list SRec) : list N :=
  map sr_seq (filter (fun r => sr_epoch r =? ep) rs).
(** The next record number of the endpoint in epoch [ep]. *)
Definition next_number (ep : N) (e : Eng12) : N := if ep =? 0 then en_seq0 e else en_seqn e.

Definition increasing (l : list N) : Prop := StronglySorted N.lt l.
Lemma increasing_snoc l x : increasing l -> Forall (fun y => y < x) l -> increasing (l ++ [x]).
Proof.
  unfold increasing. induction l as [|a l IH]; intros H F; cbn [app].
  - constructor; constructor.
  - inversion H; subst. inversion F; subst. constructor; [apply IH; assumption|].
    apply Forall_app. split; [assumption|]. constructor; [assumption|constructor].
Qed.
Lemma increasing_app_l a b : increasing (a ++ b) -> increasing a.
Proof.
  unfold increasing. induction a as [|x a IH]; cbn [app]; intros H; [constructor|].
  inversion H; subst. constructor; [apply IH; assumption|]. apply Forall_app in H3. apply H3.
Qed.

Definition numbered (em : list bytes) (e : Eng12) : Prop :=
  exists rss : list (list SRec),
    map (flat_map encode) rss = em ++ en_tx e /\
    Forall (fun r => sr_epoch r = 0 \/ sr_epoch r = 1) (concat rss) /\
    forall ep, increasing (numbers ep (concat rss)) /\ Forall (fun n => n < next_number ep e) (numbers ep (concat rss)).

Lemma numbers_app ep a b : numbers ep (a ++ b) = numbers ep a ++ numbers ep b.
Proof. unfold numbers. rewrite filter_app, map_app. reflexivity. Qed.

Lemma append_last_snoc d q b : append_last d (q ++ [b]) = q ++ [b ++ d].
Proof. unfold append_last. rewrite rev_unit, rev_involutive. reflexivity. Qed.
Lemma snoc_case {A} (l : list A) : l <> [] -> exists q b, l = q ++ [b].
Proof. intros H. destruct (exists_last H) as (q & b & K). eauto. Qed.

Lemma map_eq_snoc {A B} (f : A -> B) l q b : map f l = q ++ [b] -> exists l' a, l = l' ++ [a] /\ map f l' = q /\ f a = b.
Proof.
  intros H. apply map_eq_app in H. destruct H as (l1 & l2 & -> & H1 & H2).
  destruct l2 as [|a [|]]; try discriminate. injection H2 as H2. eauto.
Qed.

Lemma numbered_cri E em ct ep save fn f :
  pres (fun a b => numbered em a -> numbered em b) (create_record_inner E ct ep save fn f).
Proof.
  intro s. apply (wp_mono _ _ (fun _ s' => numbered em s -> numbered em s') s (create_record_spec E ct ep save fn f s)).
  intros r s' (o & sv & H). destruct r as [u|e|n].
  2,3: destruct H as (_ & -> & _); exact (fun H => H).
  destruct H as (_ & _ & frag & _ & _ & ->). intros (rss & H1 & H2 & H3).
  pose (r := mkSRec ct (if ep =? 0 then 0 else 1) (cur_seq ep s) f frag).
  change (s_rec12 ct V_DTLS12 (if ep =? 0 then 0 else 1) (cur_seq ep s) frag) with (encode r).
  assert (Hb : forall x, next_number x (bump ep (set_en_orc o (set_en_saved sv s))) =
     if (x =? 0) then (if ep =? 0 then next_number x s + 1 else next_number x s)
     else if ep =? 0 then next_number x s else next_number x s + 1).
  { intro x. unfold next_number, bump. destruct (x =? 0), (ep =? 0); reflexivity. }
  assert (Q : exists rss', map (flat_map encode) rss' = em ++ (if can_append s fn (13 + len f + overhead s ep)
      then append_last (encode r) (en_tx s) else en_tx s ++ [encode r]) /\ concat rss' = concat rss ++ [r]).
  { destruct (can_append _ _ _) eqn:Ha.
    - apply can_append_nonnil in Ha. destruct (snoc_case _ Ha) as (q & b & Hq). rewrite Hq in *. rewrite append_last_snoc.
      rewrite app_assoc in H1. apply map_eq_snoc in H1. destruct H1 as (l' & a & -> & K1 & K2).
      exists (l' ++ [a ++ [r]]). rewrite map_app, app_assoc, K1. cbn [map]. rewrite flat_map_app, K2. cbn [flat_map]. rewrite app_nil_r.
      split; [reflexivity|]. rewrite !concat_app. cbn [concat]. rewrite !app_nil_r, app_assoc. reflexivity.
    - exists (rss ++ [[r]]). rewrite map_app, H1, app_assoc. cbn [map flat_map]. rewrite app_nil_r. split; [reflexivity|].
      rewrite concat_app. cbn [concat]. rewrite app_nil_r. reflexivity. }
  destruct Q as (rss' & Q1 & Q2). exists rss'. split; [exact Q1|]. rewrite Q2. split.
  { apply Forall_app. split; [exact H2|]. constructor; [|constructor]. cbn. destruct (ep =? 0); auto. }
  intro x. specialize (H3 x). destruct H3 as [H3 H4]. rewrite numbers_app.
  change (next_number x (set_en_tx ?l ?e)) with (next_number x e). rewrite Hb. unfold numbers at 2 4. cbn [filter sr_epoch r].
  destruct ((if ep =? 0 then 0 else 1) =? x) eqn:Hx; cbn [map sr_seq r].
  - assert (Hs : cur_seq ep s = next_number x s).
    { unfold cur_seq, next_number. destruct (ep =? 0); apply N.eqb_eq in Hx; subst x; reflexivity. }
    rewrite Hs. split; [apply increasing_snoc; assumption|].
    apply Forall_app. split.
    + eapply Forall_impl; [|exact H4]. cbv beta. intros n Hn. destruct (x =? 0), (ep =? 0); lia.
    + constructor; [|constructor]. destruct (ep =? 0); apply N.eqb_eq in Hx; subst x; cbn [N.eqb]; lia.
  - rewrite !app_nil_r. split; [exact H3|].
    eapply Forall_impl; [|exact H4]. cbv beta. intros n Hn. destruct (x =? 0), (ep =? 0); lia.
Qed.

Lemma numbered_drop em e : numbered em e -> numbered em (set_en_tx [] e).
Proof.
  intros (rss & H1 & H2 & H3). apply map_eq_app in H1. destruct H1 as (l1 & l2 & -> & K1 & K2).
  rewrite concat_app in H2. exists l1. split; [ecbn; rewrite app_nil_r; exact K1|].
  apply Forall_app in H2. split; [apply H2|]. intro x. specialize (H3 x). rewrite concat_app, numbers_app in H3. destruct H3 as [H3 H4].
  split; [eapply increasing_app_l; exact H3|]. apply Forall_app in H4. apply H4.
Qed.

(** Build a [wire_frame] from the proof for [create_record_inner]. *)
Ltac wire_all cri drop :=
  let po := constr:(tt) in
  constructor;
  [ intros em; constructor;
    first
    [ solve [split; auto]
    | solve [intros; assumption]
    | solve [intros; apply cri]
    | solve [intros; apply fr2_create_handshake; first [split; solve [auto]|assumption|intros; apply cri|intros; assumption]]
    | solve [intros; apply fr_next_handshake; first [split; solve [auto]|intros; assumption]]
    | solve [intros; apply fr_next_record; first [split; solve [auto]|intros; assumption]]
    | solve [apply fr_drop_ccs; first [split; solve [auto]|intros; assumption]]
    | solve [apply fr_reset_server; first [split; solve [auto]|intros; assumption]]
    | solve [apply fr_reset_client; first [split; solve [auto]|intros; assumption]]
    | solve [intros; apply fr_set_suite; first [split; solve [auto]|intros; assumption]]
    | solve [apply fr2_enable_peer; first [split; solve [auto]|intros; apply cri|intros; apply drop; assumption|intros; assumption]]
    | solve [apply fr_flight_begin; first [split; solve [auto]|intros; assumption]]
    | solve [apply fr_flight_stop; first [split; solve [auto]|intros; assumption]]
    | solve [apply fr_release; first [split; solve [auto]|intros; assumption]]
    | solve [unfold discard_pending_writes; apply pres_modify; intros; apply drop; assumption]
    | idtac ]
  | solve [intros; assumption]
  | intros em; unfold eng12_abort; apply pres_modify; intros ? ?;
    match goal with H : ?T em ?s |- _ => apply (drop em s) in H; exact H end
  | intros em p; apply fr2_parse_packet; first [split; solve [auto]|intros; apply cri|intros; apply drop; assumption|intros; assumption]
  | intros em now; apply fr2_handle_timeout; first [split; solve [auto]|intros; apply cri|intros; apply drop; assumption|intros; assumption]
  | solve [intros; assumption]
  | solve [intros; assumption]
  | idtac ].

Lemma numbered_frame E : wire_frame E numbered.
Proof.
  wire_all (numbered_cri E) numbered_drop.
  intros em p l s Ht (rss & H1 & H2 & H3). exists rss. ecbn. rewrite <- app_assoc. cbn [app]. rewrite <- Ht. auto.
Qed.

Lemma reach_numbered E cfg auth h s : reach12 E cfg auth h s -> numbered (packets_of (outputs h)) (end_eng s).
Proof.
  apply (wire_reach E numbered (numbered_frame E)). exists []. split; [reflexivity|]. split; [constructor|].
  intro x. split; constructor.
Qed.

(** ** What a retransmission puts in the queue *)

(** [sent_as E e ct ep f n r]: record [r] carries type [ct], epoch [ep] and plaintext
    [f] under record number [n], protected (epoch 1) with the keys of [e]. *)
Definition sent_as (E : Env) (e : Eng12) (k : N * N * bytes) (n : N) (r : SRec) : Prop :=
  let '(ct, ep, f) := k in
  sr_type r = ct /\ sr_epoch r = (if ep =? 0 then 0 else 1) /\ sr_plain r = f /\ sr_seq r = n /\
  payload_of E (set_en_seqn n e) ct ep f (sr_wire r).

(** The records of [ks], in order, under consecutive numbers of each epoch. *)
Fixpoint sent_all (E : Env) (e : Eng12) (n0 n1 : N) (ks : list (N * N * bytes)) (rs : list SRec) : Prop :=
  match ks, rs with
  | [], [] => True
  | k :: ks, r :: rs =>
    let ep := snd (fst k) in
    sent_as E e k (if ep =? 0 then n0 else n1) r /\
    (if ep =? 0 then sent_all E e (n0 + 1) n1 ks rs else sent_all E e n0 (n1 + 1) ks rs)
  | _, _ => False
  end.

(** Equal keys. *)
Definition same_keys (a b : Eng12) : Prop :=
  own_iv a = own_iv b /\ en_enl a = en_enl b /\ own_cipher a = own_cipher b.

Lemma sent_as_keys E a b k n r : same_keys a b -> sent_as E a k n r -> sent_as E b k n r.
Proof.
  destruct k as [[ct ep] f]. intros (K1 & K2 & K3) (H1 & H2 & H3 & H4 & H5).
  refine (conj H1 (conj H2 (conj H3 (conj H4 _)))). clear - K1 K2 K3 H5. revert H5. unfold payload_of. destruct (ep =? 0); [auto|].
  change (own_iv (set_en_seqn n a)) with (own_iv a). change (own_iv (set_en_seqn n b)) with (own_iv b).
  change (own_cipher (set_en_seqn n a)) with (own_cipher a). change (own_cipher (set_en_seqn n b)) with (own_cipher b).
  change (en_enl (set_en_seqn n a)) with (en_enl a). change (en_enl (set_en_seqn n b)) with (en_enl b).
  change (en_seqn (set_en_seqn n a)) with n. change (en_seqn (set_en_seqn n b)) with n.
  rewrite K1, K2, K3. exact (fun H => H).
Qed.
Lemma sent_all_keys E a b ks : same_keys a b -> forall n0 n1 rs, sent_all E a n0 n1 ks rs -> sent_all E b n0 n1 ks rs.
Proof.
  intros K. induction ks as [|k ks IH]; intros n0 n1 [|r rs]; cbn [sent_all]; auto.
  intros [H1 H2]. split; [eapply sent_as_keys; eassumption|]. destruct (snd (fst k) =? 0); apply IH; exact H2.
Qed.

Lemma resend_loop_spec E replace ks : forall first s,
  wp (resend_loop E replace first ks) (fun r s' =>
    exists rs ks1 ks2, ks = ks1 ++ ks2 /\ sent_all E s (en_seq0 s) (en_seqn s) ks1 rs /\
      concat (en_tx s') = concat (en_tx s) ++ flat_map encode rs /\ en_saved s' = en_saved s /\
      (en_cfg s' = en_cfg s) /\
      (r = Ok tt -> ks2 = []) ) s.
Proof.
  induction ks as [|[[ct ep] f] ks IH]; intros first s; cbn [resend_loop].
  - wps. exists [], [], []. cbn. rewrite app_nil_r. auto 10.
  - apply wp_bind. eapply wp_mono; [apply create_record_spec|]. intros r s1 (o & sv & H). cbv zeta in H. destruct r as [u|e|n].
    + destruct H as (-> & _ & frag & HP & _ & ->).
      pose (r := mkSRec ct (if ep =? 0 then 0 else 1) (cur_seq ep s) f frag).
      change (s_rec12 ct V_DTLS12 (if ep =? 0 then 0 else 1) (cur_seq ep s) frag) with (encode r).
      set (app := can_append _ _ _).
      match goal with |- wp _ _ ?x => set (s2 := x) end.
      eapply wp_mono; [apply (IH false s2)|]. intros r' s' (rs & ks1 & ks2 & -> & HS & HT & HV & HC & HO).
      exists (r :: rs), ((ct, ep, f) :: ks1), ks2. split; [reflexivity|]. split.
      * cbn [sent_all fst snd]. split.
        { unfold sent_as. cbn [sr_type sr_epoch sr_plain sr_seq sr_wire r]. unfold cur_seq.
          split; [reflexivity|]. split; [reflexivity|]. split; [reflexivity|]. split; [reflexivity|].
          revert HP. unfold payload_of. destruct (ep =? 0) eqn:Hep; [auto|]. exact (fun H => H). }
        { assert (K : same_keys s2 s) by (unfold same_keys, s2, bump; destruct (ep =? 0); repeat split; reflexivity).
          apply (sent_all_keys E s2 s ks1 K) in HS. unfold s2, bump in HS. destruct (ep =? 0); exact HS. }
      * split; [|split; [|split; [|exact HO]]].
        { rewrite HT. cbn [flat_map]. unfold s2. ecbn. rewrite app_assoc. f_equal.
          change (en_tx (set_en_tx ?l ?e)) with l.
          destruct app eqn:Ha.
          - apply concat_append_last. eapply can_append_nonnil. exact Ha.
          - rewrite concat_app. cbn [concat]. rewrite app_nil_r. reflexivity. }
        { rewrite HV. unfold s2, bump. destruct (ep =? 0); reflexivity. }
        { rewrite HC. unfold s2, bump. destruct (ep =? 0); reflexivity. }
    + destruct H as (Hs & -> & _). exists [], [], ((ct, ep, f) :: ks). cbn [sent_all app flat_map]. ecbn. rewrite app_nil_r.
      split; [reflexivity|]. split; [exact I|]. split; [reflexivity|]. split; [destruct Hs as [->|[K _]]; [reflexivity|discriminate]|]. split; [reflexivity|discriminate].
    + destruct H as (Hs & -> & _). exists [], [], ((ct, ep, f) :: ks). cbn [sent_all app flat_map]. ecbn. rewrite app_nil_r.
      split; [reflexivity|]. split; [exact I|]. split; [reflexivity|]. split; [destruct Hs as [->|[K _]]; [reflexivity|discriminate]|]. split; [reflexivity|discriminate].
Qed.

Lemma flight_resend_spec E s r s' : flight_resend E s = (r, s') ->
  exists rs ks1 ks2, en_saved s = ks1 ++ ks2 /\ sent_all E s (en_seq0 s) (en_seqn s) ks1 rs /\
    concat (en_tx s') = (if en_release s then concat (en_tx s) else []) ++ flat_map encode rs /\
    en_saved s' = en_saved s /\ (r = Ok tt -> ks2 = []).
Proof.
  intros H. unfold flight_resend, bind, get, when, modify, ret in H.
  destruct (en_release s) eqn:Hr; cbn [negb] in H.
  - pose proof (resend_loop_spec E false (en_saved s) true s) as K. unfold wp in K. rewrite H in K.
    destruct K as (rs & ks1 & ks2 & K1 & K2 & K3 & K4 & _ & K5). exists rs, ks1, ks2. auto.
  - set (s0 := set_en_tx [] s) in *.
    pose proof (resend_loop_spec E true (en_saved s) true s0) as K. unfold wp in K. rewrite H in K.
    destruct K as (rs & ks1 & ks2 & K1 & K2 & K3 & K4 & _ & K5). exists rs, ks1, ks2.
    split; [exact K1|]. split; [|auto]. apply (sent_all_keys E s0 s); [repeat split|exact K2].
Qed.
