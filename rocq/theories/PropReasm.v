(** C10, C12: reassembly of handshake messages, both versions. *)
From Verif Require Import Prelude PreludeFacts Types Codec Codec12 Codec13 Env Config Context12 Monad MonadFacts
  Record12 Record13 Spec Record12Proofs Record13Proofs CodecProofs Timer Engine12 Engine12Frame Engine13 Frame13 Lift13 Send12Proofs Frag12Proofs Toy Reasm.

(** ** Executions *)

(** What happens to a receiver during a flight: a datagram of the flight arrives, the
    protocol asks for a message of some type, or something else happens. *)
Inductive RxEvent :=
| Arrives (d : list Frag12)
| Takes (t : N) (o : option (N * N * bytes))   (* type, number and body, if any *)
| Other.
Definition taken (evs : list RxEvent) : list (N * N * bytes) :=
  flat_map (fun e => match e with Takes _ (Some m) => [m] | _ => [] end) evs.
Fixpoint numbered (n : N) (fl : list FMsg) : list (N * N * bytes) :=
  match fl with
  | [] => []
  | m :: fl => (fm_type m, n, fm_body m) :: numbered (n + 1) fl
  end.
(** A received datagram carries one fragment in each of its records. *)
Definition carries (inc : list Rec12) (d : list Frag12) : Prop := map r_hs inc = map (fun f => [f]) d.

(** DTLS 1.2.  Datagrams [ds] arrive in any order and any number of times while the
    receiver is in the handshake ([en_release] is false), with records that are
    protected if they have to be, and the receive queue is not full. *)
Inductive run12 (E : Env) (ds : list (list Frag12)) (s0 : Eng12) : list RxEvent -> Eng12 -> Prop :=
| run12_start : run12 E ds s0 [] s0
| run12_arrive evs s inc d r s' : run12 E ds s0 evs s -> In d ds -> carries inc d ->
    (en_penc s = true -> match inc with x :: _ => r_epoch x <> 0 | [] => True end) -> en_release s = false ->
    insert_incoming E inc s = (r, s') -> r <> Err ERxFull -> run12 E ds s0 (evs ++ [Arrives d]) s'
| run12_take evs s t o s' : run12 E ds s0 evs s -> next_handshake t s = (Ok o, s') ->
    run12 E ds s0 (evs ++ [Takes t (option_map (fun m => (m_type m, m_seq m, m_raw m)) o)]) s'
| run12_other evs s s' : run12 E ds s0 evs s ->
    en_rx s' = en_rx s \/ en_rx s' = purge_handled (en_rx s) -> en_peer_hs s' = en_peer_hs s ->
    run12 E ds s0 (evs ++ [Other]) s'.

(** DTLS 1.3: the caller advances the expected number after a message. *)
Inductive run13 (E : Env) (ds : list (list Frag12)) (s0 : Eng13) : list RxEvent -> Eng13 -> Prop :=
| run13_start : run13 E ds s0 [] s0
| run13_arrive evs s inc d r s' : run13 E ds s0 evs s -> In d ds -> carries inc d -> g_release s = false ->
    insert_incoming13 E inc s = (r, s') -> r <> Err ERxFull -> run13 E ds s0 (evs ++ [Arrives d]) s'
| run13_none evs s u w t s' : run13 E ds s0 evs s -> next_handshake13_gen u w t s = (Ok None, s') ->
    run13 E ds s0 (evs ++ [Takes t None]) s'
| run13_take evs s u w t m s1 s' : run13 E ds s0 evs s -> next_handshake13_gen u w t s = (Ok (Some m), s1) ->
    advance_peer s1 = (Ok tt, s') -> run13 E ds s0 (evs ++ [Takes t (Some (n_type m, n_seq m, n_raw m))]) s'
| run13_other evs s s' : run13 E ds s0 evs s ->
    g_rx s' = g_rx s \/ g_rx s' = purge_handled (g_rx s) -> g_peer_hs s' = g_peer_hs s ->
    run13 E ds s0 (evs ++ [Other]) s'.

(** ** Inserting *)
Lemma carries_holds n fl ds p d inc : flight_ok n fl ds -> In d ds -> carries inc d ->
  (match d with f :: _ => p <= f_seq f | [] => True end) -> holds p d inc.
Proof.
  intros F Hd Hc Hh. unfold holds, carries in *. rewrite Hc. apply map_ext_in. intros f Hf. f_equal. unfold mark.
  assert (Hin : In f (flight_frags n fl)) by (destruct F as (_ & _ & <-); apply in_concat; eauto).
  assert (Hu : f_handled f = false).
  { clear - Hin. revert n Hin. induction fl as [|m fl IH]; intros n; [intros []|]. cbn. intros H. apply in_app_or in H. destruct H as [H|H]; [|eauto].
    apply frags_from_in in H. tauto. }
  assert (Hs : p <= f_seq f).
  { destruct d as [|g d]; [destruct Hf|]. destruct Hf as [->|Hf]; [exact Hh|].
    destruct (ds_ordered _ _ _ F) as [_ O]. apply in_split in Hd. destruct Hd as (l1 & l2 & ->).
    rewrite concat_app in O. apply FOP_app_inv in O. destruct O as (_ & O & _). cbn in O. inversion O as [|? ? O1 _]; subst.
    rewrite Forall_forall in O1. assert (K : flt g f) by (apply O1; apply in_or_app; left; exact Hf). destruct K as [K|[K _]]; lia. }
  replace (f_seq f <? p) with false by lia. rewrite <- Hu. destruct f; reflexivity.
Qed.
Lemma carries_low inc d p t (dup : Frag12 -> option N) : carries inc d -> (forall f n, dup f = Some n -> n = f_seq f) ->
  first_some (fun r => match first_hs r with Some h => dup h | None => None end) inc = Some t -> t < p ->
  exists f, In f d /\ f_seq f < p.
Proof.
  unfold carries. intros Hc Hdup. revert d Hc. induction inc as [|r inc IH]; intros [|f d] Hc; try discriminate.
  cbn [map] in Hc. injection Hc as H1 H2. cbn [first_some]. unfold first_hs at 1. rewrite H1. cbn [hd_error].
  destruct (dup f) as [k|] eqn:Hk.
  - intros [= ->] Hl. exists f. split; [left; reflexivity|]. rewrite <- (Hdup _ _ Hk). exact Hl.
  - intros Hs Hl. destruct (IH d H2 Hs Hl) as (g & Hg & Hg2). exists g. split; [right; exact Hg|exact Hg2].
Qed.
Lemma bs_exact E t cs a o y : bsearch_ok E -> cs = repeat Lt a ++ repeat Eq o ++ repeat Gt y ->
  (fst (e_bsearch E t cs) = true /\ (0 < o)%nat /\ nth_error cs (snd (e_bsearch E t cs)) = Some Eq) \/
  (fst (e_bsearch E t cs) = false /\ o = 0%nat /\ snd (e_bsearch E t cs) = a).
Proof.
  intros H Hc. specialize (H t cs). destruct (e_bsearch E t cs) as [found i]. destruct H as (H1 & H2 & H3). cbn.
  destruct (H3 _ _ _ Hc) as [H4 H5]. destruct found; [left|right].
  - split; [reflexivity|]. split; [apply H4; reflexivity|auto].
  - split; [reflexivity|]. split; [|auto]. destruct o; [reflexivity|]. exfalso. assert (false = true) by (apply H4; lia). discriminate.
Qed.
Lemma got_stays n p fl ds have (got : list Frag12 -> Prop) rx d : queue_ok n p fl ds have got rx ->
  (exists f, In f d /\ f_seq f < p) -> queue_ok n p fl ds have (fun x => got x \/ x = d) rx.
Proof.
  intros [Q1 Q2 Q3] H. constructor; [exact Q1|exact Q2|]. intros z Hz Hf [[Hg| ->]|Hg]; apply Q3; auto.
Qed.

Definition same_queue12 (a b : Eng12) : Prop :=
  en_rx b = en_rx a /\ en_peer_hs b = en_peer_hs a /\ en_penc b = en_penc a /\ en_release b = en_release a /\ en_cfg b = en_cfg a.
Lemma resend_queue12 E s : same_queue12 s (snd (flight_resend E s)).
Proof.
  revert s. change (pres same_queue12 (flight_resend E)).
  assert (PO : preorder same_queue12) by (split; [intro; repeat split|intros a b c (A1 & A2 & A3 & A4 & A5) (B1 & B2 & B3 & B4 & B5); repeat split; congruence]).
  apply fr_flight_resend; first [exact PO|intros; repeat split].
Qed.
Definition same_queue13 (a b : Eng13) : Prop :=
  g_rx b = g_rx a /\ g_peer_hs b = g_peer_hs a /\ g_release b = g_release a /\ g_cfg b = g_cfg a.
Lemma resend_queue13 E s : same_queue13 s (snd (flight_resend13 E s)).
Proof.
  revert s. change (pres same_queue13 (flight_resend13 E)).
  assert (PO : preorder same_queue13) by (split; [intro; repeat split|intros a b c (A1 & A2 & A3 & A4) (B1 & B2 & B3 & B4); repeat split; congruence]).
  fr13 ltac:(first [exact PO|intros; repeat split]).
Qed.

Lemma dupe12_seq h k : dupe_triggers_resend h = Some k -> k = f_seq h.
Proof. unfold dupe_triggers_resend. destruct (negb _); [discriminate|]. destruct (memN _ _); [|discriminate]. congruence. Qed.
Lemma dupe13_seq h k : dupe_triggers_resend13 h = Some k -> k = f_seq h.
Proof. unfold dupe_triggers_resend13. destruct (negb _); [discriminate|]. destruct (memN _ _); [|discriminate]. congruence. Qed.
Lemma insert12_queue E n fl ds p have got s d inc r s' : bsearch_ok E -> flight_ok n fl ds ->
  queue_ok n p fl ds have got (en_rx s) -> en_peer_hs s = p -> In d ds -> carries inc d ->
  (en_penc s = true -> match inc with x :: _ => r_epoch x <> 0 | [] => True end) -> en_release s = false ->
  insert_incoming E inc s = (r, s') -> r <> Err ERxFull ->
  en_peer_hs s' = p /\ exists have', queue_ok n p fl ds have' (fun x => got x \/ x = d) (en_rx s').
Proof.
  intros BS F Q Hp Hd Hc Hpe Hrel Hi Hr.
  assert (Nd : d <> []) by (destruct F as (_ & F2 & _); rewrite Forall_forall in F2; auto).
  destruct d as [|f d]; [congruence|]. destruct inc as [|x inc]; [discriminate|].
  assert (Hx : r_hs x = [f]) by (unfold carries in Hc; cbn in Hc; congruence).
  unfold insert_incoming, bind at 1, get in Hi. cbv beta iota in Hi. destruct (_ <=? _); [injection Hi as <- _; congruence|].
  unfold first_hs in Hi. rewrite Hx in Hi. cbn [hd_error] in Hi. fold (first_hs x) in Hi.
  unfold insert_incoming_handshake, bind at 1, get in Hi. cbv beta iota zeta in Hi.
  match type of Hi with context [first_some ?g _] => set (dup := first_some g (x :: inc)) in Hi; assert (Hdup : forall t, dup = Some t -> t < p -> exists h, In h (f :: d) /\ f_seq h < p) end.
  { intros t Ht Hl. apply (carries_low (x :: inc) (f :: d) p t dupe_triggers_resend Hc); [|exact Ht|exact Hl].
    apply dupe12_seq. }
  set (resend := match dup with Some d0 => when _ _ | None => _ end) in Hi.
  assert (Hres : same_queue12 s (snd (resend s)) /\ ((exists u, fst (resend s) = Ok u) \/ exists h, In h (f :: d) /\ f_seq h < p)).
  { unfold resend. destruct dup as [t|]; [|split; [repeat split|left; exists tt; reflexivity]].
    unfold when. destruct (t <? en_peer_hs s) eqn:Ht; cbn [andb]; [|split; [repeat split|left; exists tt; reflexivity]].
    destruct (negb (en_confirmed s)); [|split; [repeat split|left; exists tt; reflexivity]].
    split; [apply resend_queue12|]. right. apply (Hdup t eq_refl). apply N.ltb_lt in Ht. congruence. }
  unfold bind at 1 in Hi. destruct (resend s) as [r1 s1]. cbn [fst snd] in Hres. destruct Hres as [(R1 & R2 & R3 & R4 & R5) Hres].
  assert (Low : (exists h, In h (f :: d) /\ f_seq h < p) -> s' = s1 ->
    en_peer_hs s' = p /\ exists have', queue_ok n p fl ds have' (fun x => got x \/ x = f :: d) (en_rx s')).
  { intros HL ->. split; [congruence|]. exists have. rewrite R1. apply got_stays; assumption. }
  destruct r1 as [u|e|k]; [|destruct Hres as [(u & Hu)|HL]; [discriminate|injection Hi as <- <-; auto]..].
  cbv beta iota in Hi. rewrite Hp in Hi. destruct (f_seq f <? p) eqn:Hlow.
  { unfold ret in Hi. injection Hi as <- <-. apply Low; [|reflexivity]. exists f. split; [left; reflexivity|lia]. }
  assert (Hpe' : en_penc s && (r_epoch x =? 0) = false).
  { destruct (en_penc s); [|reflexivity]. specialize (Hpe eq_refl). cbn. apply N.eqb_neq. exact Hpe. }
  rewrite Hpe', Hrel in Hi. cbn [andb] in Hi.
  unfold bsearch, draw, gets, bind, get, ret, modify in Hi. cbv beta iota in Hi.
  destruct (queue_insert n fl ds F p have got (en_rx s) (f :: d) (x :: inc) Q Hd) as (a & o & y & HC & Q0 & Q1).
  { eapply carries_holds; eauto. cbn. lia. }
  cbn [dkey] in HC. rewrite <- R1 in HC.
  change (en_rx (set_en_orc ?v ?z)) with (en_rx z) in Hi.
  rewrite <- R1 in Hi. destruct (bs_exact E (en_orc s1) _ a o y BS HC) as [(B1 & B2 & _)|(B1 & B2 & B3)];
    destruct (e_bsearch E _ _) as [found i]; cbn [fst snd] in *; subst found.
  - injection Hi as <- <-. cbn. split; [congruence|]. rewrite R1. auto.
  - subst i. injection Hi as <- <-. cbn. split; [congruence|]. rewrite R1. auto.
Qed.
Lemma insert13_queue E n fl ds p have got s d inc r s' : bsearch_ok E -> flight_ok n fl ds ->
  queue_ok n p fl ds have got (g_rx s) -> g_peer_hs s = p -> In d ds -> carries inc d -> g_release s = false ->
  insert_incoming13 E inc s = (r, s') -> r <> Err ERxFull ->
  g_peer_hs s' = p /\ exists have', queue_ok n p fl ds have' (fun x => got x \/ x = d) (g_rx s').
Proof.
  intros BS F Q Hp Hd Hc Hrel Hi Hr.
  assert (Nd : d <> []) by (destruct F as (_ & F2 & _); rewrite Forall_forall in F2; auto).
  destruct d as [|f d]; [congruence|]. destruct inc as [|x inc]; [discriminate|].
  assert (Hx : r_hs x = [f]) by (unfold carries in Hc; cbn in Hc; congruence).
  unfold insert_incoming13, bind at 1, get in Hi. cbv beta iota in Hi. destruct (_ <=? _); [injection Hi as <- _; congruence|].
  unfold first_hs in Hi. rewrite Hx in Hi. cbn [hd_error] in Hi. fold (first_hs x) in Hi.
  unfold insert_handshake13, bind at 1, get in Hi. cbv beta iota zeta in Hi.
  match type of Hi with context [first_some ?g _] => set (dup := first_some g (x :: inc)) in Hi; assert (Hdup : forall t, dup = Some t -> t < p -> exists h, In h (f :: d) /\ f_seq h < p) end.
  { intros t Ht Hl. apply (carries_low (x :: inc) (f :: d) p t dupe_triggers_resend13 Hc); [|exact Ht|exact Hl].
    apply dupe13_seq. }
  set (resend := match dup with Some d0 => when _ _ | None => _ end) in Hi.
  assert (Hres : same_queue13 s (snd (resend s)) /\ ((exists u, fst (resend s) = Ok u) \/ exists h, In h (f :: d) /\ f_seq h < p)).
  { unfold resend. destruct dup as [t|]; [|split; [repeat split|left; exists tt; reflexivity]].
    unfold when. destruct (t <? g_peer_hs s) eqn:Ht; [|split; [repeat split|left; exists tt; reflexivity]].
    split; [apply resend_queue13|]. right. apply (Hdup t eq_refl). apply N.ltb_lt in Ht. congruence. }
  unfold bind at 1 in Hi. destruct (resend s) as [r1 s1]. cbn [fst snd] in Hres. destruct Hres as [(R1 & R2 & R3 & R4) Hres].
  assert (Low : (exists h, In h (f :: d) /\ f_seq h < p) -> s' = s1 ->
    g_peer_hs s' = p /\ exists have', queue_ok n p fl ds have' (fun x => got x \/ x = f :: d) (g_rx s')).
  { intros HL ->. split; [congruence|]. exists have. rewrite R1. apply got_stays; assumption. }
  destruct r1 as [u|e|k]; [|destruct Hres as [(u & Hu)|HL]; [discriminate|injection Hi as <- <-; auto]..].
  cbv beta iota in Hi. rewrite Hp in Hi. destruct (f_seq f <? p) eqn:Hlow.
  { unfold ret in Hi. injection Hi as <- <-. apply Low; [|reflexivity]. exists f. split; [left; reflexivity|lia]. }
  rewrite Hrel in Hi. cbn [andb] in Hi.
  unfold bsearch13, draw13, gets, bind, get, ret, modify in Hi. cbv beta iota in Hi.
  destruct (queue_insert n fl ds F p have got (g_rx s) (f :: d) (x :: inc) Q Hd) as (a & o & y & HC & Q0 & Q1).
  { eapply carries_holds; eauto. cbn. lia. }
  cbn [dkey] in HC. rewrite <- R1 in HC.
  change (g_rx (set_g_orc ?v ?z)) with (g_rx z) in Hi.
  rewrite <- R1 in Hi. destruct (bs_exact E (g_orc s1) _ a o y BS HC) as [(B1 & B2 & B3)|(B1 & B2 & B3)];
    destruct (e_bsearch E _ _) as [found i]; cbn [fst snd] in *; subst found.
  - rewrite R1 in *. destruct Q as [QA QB QC].
    assert (HI : exists it, nth_error (g_rx s) i = Some it /\ hs_key it = (f_seq f, f_off f)).
    { rewrite nth_error_map in B3. destruct (nth_error (g_rx s) i) as [it|]; [|discriminate]. exists it. split; [reflexivity|].
      cbn in B3. injection B3 as B3. apply cmp_pair_eq in B3. exact B3. }
    destruct HI as (it & HI1 & HI2). rewrite HI1 in Hi.
    assert (HD : exists d', In d' have /\ holds p d' it).
    { clear - QB HI1. revert i HI1. induction QB as [|d' i' l l' H1 H2 IH]; intros [|i] H; try discriminate; cbn in H.
      - injection H as <-. exists d'. split; [left; reflexivity|exact H1].
      - destruct (IH _ H) as (z & Z1 & Z2). exists z. split; [right; exact Z1|exact Z2]. }
    destruct HD as (d' & HD1 & HD2). pose proof (subseq_in _ _ QA _ HD1) as HD3.
    assert (Nd' : d' <> []) by (destruct F as (_ & F2 & _); rewrite Forall_forall in F2; auto).
    assert (d' = f :: d).
    { pose proof (dgs_keys _ (ds_ordered _ _ _ F)) as KO. destruct (ForallOrdPairs_In KO _ _ HD3 Hd) as [H|[H|H]]; [exact H|..];
        rewrite <- (holds_key p d' it Nd' HD2), HI2 in H; unfold klt, dkey in H; apply cmp_pair_lt in H; cbn in H; lia. }
    subst d'. destruct it as [|z it]; [discriminate|].
    assert (Hz : r_hs z = [mark p f]) by (unfold holds in HD2; cbn in HD2; congruence).
    assert (Hz1 : rec_handled z = false) by (unfold rec_handled; rewrite Hz; cbn; rewrite Hlow; reflexivity).
    assert (Hz2 : frag_whole z = frag_whole x) by (unfold frag_whole, first_hs; rewrite Hz, Hx; reflexivity).
    rewrite Hz1, Hz2 in Hi. cbn [orb] in Hi.
    replace (match frag_whole x with Some b => negb b | None => false end && match frag_whole x with Some b => b | None => false end) with false in Hi
      by (destruct (frag_whole x) as [[|]|]; reflexivity).
    injection Hi as <- <-. cbn. split; [congruence|]. rewrite R1. apply Q1. exact B2.
  - subst i. injection Hi as <- <-. cbn. split; [congruence|]. rewrite R1. auto.
Qed.

(** ** Taking *)
Lemma complete_mark n tot p l : forall e, frags_complete n tot e (map (mark p) l) = frags_complete n tot e l.
Proof. induction l as [|f l IH]; intros e; [reflexivity|]. cbn. rewrite !IH. reflexivity. Qed.
Lemma scan_mark n tot p l : forall e, frags_scan n tot e (map (mark p) l) = frags_scan n tot e l.
Proof. induction l as [|f l IH]; intros e; [reflexivity|]. cbn. rewrite !IH. reflexivity. Qed.
Lemma data_mark p l : flat_map f_data (map (mark p) l) = flat_map f_data l.
Proof. induction l as [|f l IH]; [reflexivity|]. cbn. rewrite IH. reflexivity. Qed.
Lemma assemble_mark p l : assemble_run13 (map (mark p) l) = assemble_run13 l.
Proof.
  destruct l as [|f l]; [reflexivity|]. cbn. f_equal. generalize (f_off f + f_flen f). induction l as [|g l IH]; intros e; [reflexivity|].
  cbn. rewrite IH. reflexivity.
Qed.

(** What [next_handshake] sees. *)
Lemma queue_sees n fl ds p have got rx : flight_ok n fl ds -> queue_ok n p fl ds have got rx -> n <= p ->
  let hs := skip_while f_handled (flat_map r_hs (firstn 50 (skip_while rec_handled (concat rx)))) in
  (forall first rest, hs = first :: rest -> f_seq first = p ->
    exists m, nth_error fl (N.to_nat (p - n)) = Some m /\ f_type first = fm_type m /\ f_length first = len (fm_body m) /\
      (of_msg p (concat have) = msg_frags p m \/
       (frags_complete p (f_length first) 0 hs = false /\ frags_scan p (f_length first) 0 hs <> ScanComplete))) /\
  (forall m, nth_error fl (N.to_nat (p - n)) = Some m -> of_msg p (concat have) = msg_frags p m ->
    (exists g1 first run more, skip_while f_handled (all_frags rx) = first :: more /\ (exists rest, hs = first :: rest) /\
      first :: take_while (same_msg first) more = run /\ run = map (mark p) (msg_frags p m) /\
      f_seq first = p /\ f_type first = fm_type m /\ f_length first = len (fm_body m) /\
      flat_map f_data run = fm_body m /\ assemble_run13 run = fm_body m /\ length run = length (fm_cut m) /\
      Forall (fun f => f_seq f <> p) g1 /\ hs = firstn 50 (map (mark p) (msg_frags p m ++ g1))) /\
    ((length (fm_cut m) <= 50)%nat -> frags_complete p (len (fm_body m)) 0 hs = true /\ frags_scan p (len (fm_body m)) 0 hs = ScanComplete)).
Proof.
  intros F Q Hp hs. destruct (queue_frags n fl ds F _ _ _ _ Q) as (a & g & S & Ha & Hg & I & E1 & E2). fold hs in E2.
  assert (Hg' : Forall (fun f => f_seq f <> p) g) by (eapply Forall_impl; [|exact Hg]; cbv beta; intros; lia).
  pose proof (queue_msg_sub n fl ds F _ _ _ _ Q Hp) as Sub.
  assert (MP : forall m, nth_error fl (N.to_nat (p - n)) = Some m -> message_pieces (fm_body m) (fm_cut m)).
  { intros m Hm. destruct F as (F1 & _). rewrite Forall_forall in F1. apply F1. eapply nth_error_In; exact Hm. }
  set (w := of_msg p (concat have)) in *. split.
  - intros first rest Hhs Hs. rewrite firstn_map in E2.
    assert (Hf : exists f0, first = mark p f0 /\ In f0 w).
    { rewrite Hhs in E2. destruct (firstn 50 (w ++ g)) as [|f0 l] eqn:Hl; [discriminate|]. cbn in E2. injection E2 as E3 _.
      exists f0. split; [exact E3|]. assert (K : In f0 (w ++ g)) by (apply subseq_in with (1 := subseq_firstn 50 _); rewrite Hl; left; reflexivity).
      apply in_app_or in K. destruct K as [K|K]; [exact K|]. rewrite Forall_forall in Hg'. specialize (Hg' _ K). subst first. elim Hg'. exact Hs. }
    destruct Hf as (f0 & -> & Hin). pose proof (subseq_in _ _ Sub _ Hin) as Hin2.
    destruct (nth_error fl (N.to_nat (p - n))) as [m|] eqn:Hm; [|destruct Hin2]. exists m. split; [reflexivity|].
    destruct (frags_from_in _ _ _ _ _ _ Hin2) as (_ & T & L & _). split; [exact T|]. split; [exact L|].
    cbn [f_length mark set_f_handled]. destruct (MP m eq_refl) as [MP1 MP2]. pose proof (cut_ok _ _ (MP m eq_refl)) as [NC CO].
    rewrite E2, complete_mark, scan_mark, L. rewrite firstn_app.
    assert (SF : subseq (firstn 50 w) (msg_frags p m)) by (eapply subseq_trans; [apply subseq_firstn|exact Sub]).
    assert (Hg2 : Forall (fun f => f_seq f <> p) (firstn (50 - length w) g)).
    { apply Forall_forall. intros z Hz. rewrite Forall_forall in Hg'. apply Hg'. eapply subseq_in; [apply subseq_firstn|exact Hz]. }
    assert (Full : firstn 50 w = msg_frags p m -> w = msg_frags p m).
    { intros K. apply subseq_full; [exact Sub|]. apply Nat.le_antisymm; [apply subseq_length; exact Sub|]. rewrite <- K.
      apply subseq_length, subseq_firstn. }
    destruct (frags_complete _ _ _ _) eqn:C1.
    { left. apply Full. unfold msg_frags. eapply complete_all; [exact Hg2| |exact CO|exact SF|exact C1]. rewrite MP1. lia. }
    destruct (frags_scan _ _ _ _) eqn:C2; [|right; split; [reflexivity|discriminate]..].
    left. apply Full. unfold msg_frags. eapply scan_all; [exact Hg2| |exact CO|exact SF|exact C2]. rewrite MP1. lia.
  - intros m Hm Hw. destruct (MP m Hm) as [MP1 MP2]. pose proof (cut_ok _ _ (MP m Hm)) as [NC CO]. rewrite Hw in *. split.
    + destruct (msg_frags p m) as [|f0 l] eqn:Hmf; [unfold msg_frags in Hmf; destruct (fm_cut m); [congruence|discriminate]|].
      assert (Hin : forall z, In z (f0 :: l) -> f_seq z = p /\ f_type z = fm_type m /\ f_length z = len (fm_body m)).
      { intros z Hz. rewrite <- Hmf in Hz. apply frags_from_in in Hz. tauto. }
      destruct (Hin f0 (or_introl eq_refl)) as (I1 & I2 & I3).
      exists g, (mark p f0), (map (mark p) (f0 :: l)), (map (mark p) (l ++ g)).
      split; [exact E1|]. split; [rewrite E2; cbn; eauto|].
      split. { cbn [map]. f_equal. rewrite map_app. apply take_while_app.
        - apply Forall_forall. intros z Hz. apply in_map_iff in Hz. destruct Hz as (y & <- & Hy).
          destruct (Hin y (or_intror Hy)) as (Y1 & Y2 & _). unfold same_msg. cbn. rewrite I1, I2, Y1, Y2, !N.eqb_refl. reflexivity.
        - apply Forall_forall. intros z Hz. apply in_map_iff in Hz. destruct Hz as (y & <- & Hy).
          rewrite Forall_forall in Hg'. specialize (Hg' _ Hy). unfold same_msg. cbn. rewrite I1. replace (p =? f_seq y) with false by lia. apply andb_false_r. }
      split; [reflexivity|]. split; [exact I1|]. split; [exact I2|]. split; [exact I3|].
      split; [rewrite data_mark, <- Hmf; unfold msg_frags; rewrite data_all; exact MP1|].
      split; [rewrite assemble_mark, <- Hmf; unfold msg_frags; rewrite assemble_run_all; exact MP1|].
      split; [rewrite map_length, <- Hmf; unfold msg_frags; clear; generalize 0 at 1; induction (fm_cut m); intros; cbn; [reflexivity|f_equal; auto]|].
      split; [exact Hg'|exact E2].
    + intros Hlen. rewrite E2, firstn_map, complete_mark, scan_mark, firstn_app.
      assert (LM : length (msg_frags p m) = length (fm_cut m)).
      { unfold msg_frags. clear. generalize 0 at 1. induction (fm_cut m); intros; cbn; [reflexivity|f_equal; auto]. }
      rewrite firstn_all2 by lia. unfold msg_frags. split; [apply complete_full|apply scan_full]; auto; rewrite MP1; lia.
Qed.

Lemma next12_queue n fl ds p have got s t o s' : flight_ok n fl ds -> queue_ok n p fl ds have got (en_rx s) -> n <= p ->
  n + len fl < 65536 -> en_peer_hs s = p -> next_handshake t s = (Ok o, s') ->
  match o with
  | None => s' = s
  | Some msg => exists m, nth_error fl (N.to_nat (p - n)) = Some m /\ t = fm_type m /\
      m_type msg = fm_type m /\ m_seq msg = p /\ m_raw msg = fm_body m /\
      en_transcript s' = en_transcript s ++ s_hs_header (fm_type m) (len (fm_body m)) p 0 (len (fm_body m)) ++ fm_body m /\
      en_peer_hs s' = p + 1 /\ queue_ok n (p + 1) fl ds have got (en_rx s')
  end.
Proof.
  intros F Q Hp Hs Hpe Hn. destruct (queue_sees _ _ _ _ _ _ _ F Q Hp) as [V1 V2]. cbv zeta in V1, V2.
  unfold next_handshake, bind at 1, get in Hn. cbv beta iota in Hn. unfold has_complete_handshake in Hn.
  destruct (skip_while f_handled (flat_map r_hs (firstn 50 (skip_while rec_handled (concat (en_rx s)))))) as [|first rest] eqn:Hhs.
  { cbn in Hn. injection Hn as <- <-. reflexivity. }
  destruct (f_seq first =? en_peer_hs s) eqn:C1; cbn [negb] in Hn; [|injection Hn as <- <-; reflexivity].
  destruct (f_type first =? t) eqn:C2; cbn [negb] in Hn; [|injection Hn as <- <-; reflexivity].
  apply N.eqb_eq in C1, C2. rewrite Hpe in C1. destruct (V1 _ _ eq_refl C1) as (m & Hm & T & L & Full).
  rewrite C1, L in *. destruct (frags_complete p (len (fm_body m)) 0 (first :: rest)) eqn:C3; cbn [negb] in Hn; [|injection Hn as <- <-; reflexivity].
  destruct Full as [Full|[Full _]]; [|discriminate]. destruct (V2 m Hm Full) as [(g1 & f1 & run & more & W1 & (rst & W2) & W3 & W4 & W5 & W6 & W7 & W8 & W9 & W10 & W11 & W12) _].
  injection W2 as <- <-. rewrite W1, W3 in Hn. destruct (Nat.ltb 50 (length run)); [discriminate|]. rewrite W8, L, N.eqb_refl in Hn. cbn [negb] in Hn.
  destruct (p_body12 (f_type first) (en_suite s) (fm_body m)) as [[body rst']|]; [|discriminate].
  unfold bind, modify in Hn. cbv beta iota in Hn. destruct (negb (is_nil rst') && rejects_trailing12 (f_type first)); [discriminate|].
  unfold ret in Hn. injection Hn as <- <-. exists m. cbn [m_type m_seq m_raw]. rewrite T, C1 in *. subst t.
  split; [exact Hm|]. split; [reflexivity|]. split; [reflexivity|]. split; [reflexivity|]. split; [reflexivity|].
  split; [reflexivity|]. split.
  - cbn. unfold u16. apply N.mod_small. assert (nth_error fl (N.to_nat (p - n)) <> None) as K by congruence.
    apply nth_error_Some in K. unfold len in Hs. lia.
  - cbn. apply (queue_take n fl ds F _ _ _ _ m); assumption.
Qed.

Lemma next12_progress n fl ds p have got s m body : flight_ok n fl ds -> queue_ok n p fl ds have got (en_rx s) -> n <= p ->
  en_peer_hs s = p -> nth_error fl (N.to_nat (p - n)) = Some m -> of_msg p (concat have) = msg_frags p m ->
  (length (fm_cut m) <= 50)%nat -> p_body12 (fm_type m) (en_suite s) (fm_body m) = Some (body, []) ->
  exists s', next_handshake (fm_type m) s = (Ok (Some (mkMsg (fm_type m) p body (fm_body m))), s').
Proof.
  intros F Q Hp Hpe Hm Full Hl Hb. destruct (queue_sees _ _ _ _ _ _ _ F Q Hp) as [_ V2]. cbv zeta in V2.
  destruct (V2 m Hm Full) as [(g1 & f1 & run & more & W1 & (rst & W2) & W3 & W4 & W5 & W6 & W7 & W8 & W9 & W10 & W11 & W12) V3].
  destruct (V3 Hl) as [V4 _]. unfold next_handshake, bind at 1, get. cbv beta iota. unfold has_complete_handshake.
  rewrite W2 in *. rewrite W5, Hpe, N.eqb_refl, W6, N.eqb_refl, W7. cbn [negb]. rewrite V4. cbn [negb]. rewrite W1, W3.
  replace (Nat.ltb 50 (length run)) with false by (symmetry; apply Nat.ltb_ge; lia). rewrite W8, W7, W6, N.eqb_refl. cbn [negb]. rewrite Hb.
  unfold bind, modify, ret. cbv beta iota. cbn [is_nil negb andb]. rewrite W5. eexists. reflexivity.
Qed.

Lemma next13_queue n fl ds p have got s u w t o s' : flight_ok n fl ds -> queue_ok n p fl ds have got (g_rx s) -> n <= p ->
  g_peer_hs s = p -> next_handshake13_gen u w t s = (Ok o, s') ->
  match o with
  | None => s' = s
  | Some msg => exists m, nth_error fl (N.to_nat (p - n)) = Some m /\ t = fm_type m /\
      n_type msg = fm_type m /\ n_seq msg = p /\ n_raw msg = fm_body m /\
      g_transcript s' = (if w then g_transcript s ++ be 1 (fm_type m) ++ be 3 (len (fm_body m)) ++ fm_body m else g_transcript s) /\
      g_peer_hs s' = p /\ queue_ok n (p + 1) fl ds have got (g_rx s')
  end.
Proof.
  intros F Q Hp Hpe Hn. destruct (queue_sees _ _ _ _ _ _ _ F Q Hp) as [V1 V2]. cbv zeta in V1, V2.
  unfold next_handshake13_gen, bind at 1, get in Hn. cbv beta iota in Hn. unfold has_complete13, pending_frags in Hn.
  destruct (skip_while f_handled (flat_map r_hs (firstn 50 (skip_while rec_handled (concat (g_rx s)))))) as [|first rest] eqn:Hhs.
  { cbn in Hn. injection Hn as <- <-. reflexivity. }
  destruct (f_seq first =? g_peer_hs s) eqn:C1; cbn [negb] in Hn; [|injection Hn as <- <-; reflexivity].
  destruct (f_type first =? t) eqn:C2; cbn [negb] in Hn; [|injection Hn as <- <-; reflexivity].
  apply N.eqb_eq in C1, C2. rewrite Hpe in C1. destruct (V1 _ _ eq_refl C1) as (m & Hm & T & L & Full).
  rewrite C1, L in *. destruct (frags_scan p (len (fm_body m)) 0 (first :: rest)) eqn:C3; cbn [negb] in Hn; [|injection Hn as <- <-; reflexivity..].
  destruct Full as [Full|[_ Full]]; [|congruence]. destruct (V2 m Hm Full) as [(g1 & f1 & run & more & W1 & (rst & W2) & W3 & W4 & W5 & W6 & W7 & W8 & W9 & W10 & W11 & W12) _].
  injection W2 as <- <-. rewrite W1, W3 in Hn. destruct (Nat.ltb 50 (length run)); [discriminate|]. rewrite W9, L, N.eqb_refl in Hn. cbn [negb] in Hn.
  destruct (p_body13 u (f_type first) (g_suite s) (fm_body m)) as [[body rst']|]; [|discriminate].
  unfold bind, modify, when in Hn. cbv beta iota in Hn. destruct (negb (is_nil rst') && mt13_known (f_type first)); [discriminate|].
  rewrite T, C1 in *. subst t. destruct w; unfold ret in Hn; injection Hn as <- <-; exists m; cbn [n_type n_seq n_raw];
    (split; [exact Hm|]; split; [reflexivity|]; split; [reflexivity|]; split; [reflexivity|]; split; [reflexivity|];
     split; [reflexivity|]; split; [exact Hpe|]; apply (queue_take n fl ds F _ _ _ _ m); assumption).
Qed.

Lemma next13_progress n fl ds p have got s u w m body : flight_ok n fl ds -> queue_ok n p fl ds have got (g_rx s) -> n <= p ->
  g_peer_hs s = p -> nth_error fl (N.to_nat (p - n)) = Some m -> of_msg p (concat have) = msg_frags p m ->
  (length (fm_cut m) <= 50)%nat -> p_body13 u (fm_type m) (g_suite s) (fm_body m) = Some (body, []) ->
  exists s', next_handshake13_gen u w (fm_type m) s = (Ok (Some (mkMsg13 (fm_type m) p body (fm_body m))), s').
Proof.
  intros F Q Hp Hpe Hm Full Hl Hb. destruct (queue_sees _ _ _ _ _ _ _ F Q Hp) as [_ V2]. cbv zeta in V2.
  destruct (V2 m Hm Full) as [(g1 & f1 & run & more & W1 & (rst & W2) & W3 & W4 & W5 & W6 & W7 & W8 & W9 & W10 & W11 & W12) V3].
  destruct (V3 Hl) as [_ V4]. unfold next_handshake13_gen, bind at 1, get. cbv beta iota. unfold has_complete13, pending_frags.
  rewrite W2 in *. rewrite W5, Hpe, N.eqb_refl, W6, N.eqb_refl, W7. cbn [negb]. rewrite V4. cbn [negb]. rewrite W1, W3.
  replace (Nat.ltb 50 (length run)) with false by (symmetry; apply Nat.ltb_ge; lia). rewrite W9, W7, W6, N.eqb_refl. cbn [negb]. rewrite Hb.
  unfold bind, modify, when. cbv beta iota. cbn [is_nil negb andb]. rewrite W5. destruct w; eexists; reflexivity.
Qed.

(** ** Executions keep the queue *)
Lemma taken_snoc evs e : taken (evs ++ [e]) = taken evs ++ match e with Takes _ (Some m) => [m] | _ => [] end.
Proof. unfold taken. rewrite flat_map_app. cbn. rewrite app_nil_r. reflexivity. Qed.
Lemma numbered_nth fl : forall n i m, nth_error fl i = Some m -> nth_error (numbered n fl) i = Some (fm_type m, n + N.of_nat i, fm_body m).
Proof.
  induction fl as [|x fl IH]; intros n [|i] m H; try discriminate; cbn in H |- *.
  - injection H as <-. rewrite N.add_0_r. reflexivity.
  - rewrite (IH (n + 1) i m H). do 3 f_equal. lia.
Qed.
Lemma firstn_snoc {A} (l : list A) k x : nth_error l k = Some x -> firstn (S k) l = firstn k l ++ [x].
Proof. revert l. induction k as [|k IH]; intros [|y l] H; try discriminate; cbn in *; [congruence|]. f_equal. auto. Qed.

Definition arrived (evs : list RxEvent) (d : list Frag12) : Prop := In (Arrives d) evs.
Lemma queue_got n p fl ds have (g1 g2 : list Frag12 -> Prop) rx : (forall d, g2 d -> g1 d) ->
  queue_ok n p fl ds have g1 rx -> queue_ok n p fl ds have g2 rx.
Proof. intros H [Q1 Q2 Q3]. constructor; auto. intros d Hd Hf [Hg|Hg]; auto. Qed.
Lemma arrived_snoc evs e d : arrived (evs ++ [e]) d -> arrived evs d \/ e = Arrives d.
Proof. unfold arrived. intros H. apply in_app_or in H. destruct H as [H|[H|[]]]; auto. Qed.

Lemma queue_other n p fl ds have evs e rx : (forall d, e <> Arrives d) ->
  queue_ok n p fl ds have (arrived evs) rx -> queue_ok n p fl ds have (arrived (evs ++ [e])) rx.
Proof.
  intros H. apply queue_got. intros d Hd. apply arrived_snoc in Hd. destruct Hd as [Hd|Hd]; [exact Hd|elim (H d Hd)].
Qed.
Lemma queue_arrive n p fl ds have evs d rx : queue_ok n p fl ds have (fun x => arrived evs x \/ x = d) rx ->
  queue_ok n p fl ds have (arrived (evs ++ [Arrives d])) rx.
Proof. apply queue_got. intros z Hz. apply arrived_snoc in Hz. destruct Hz as [Hz|Hz]; [left; exact Hz|right; congruence]. Qed.

(** The messages taken so far are the first ones of the flight. *)
Definition taken_ok (n : N) (fl : list FMsg) (evs : list RxEvent) : Prop :=
  taken evs = firstn (length (taken evs)) (numbered n fl).
Lemma taken_one n fl evs t m : taken_ok n fl evs -> nth_error fl (N.to_nat (n + len (taken evs) - n)) = Some m ->
  taken_ok n fl (evs ++ [Takes t (Some (fm_type m, n + len (taken evs), fm_body m))]) /\
  len (taken (evs ++ [Takes t (Some (fm_type m, n + len (taken evs), fm_body m))])) = len (taken evs) + 1.
Proof.
  unfold taken_ok. intros H K. rewrite taken_snoc, app_length. cbn [length]. rewrite Nat.add_1_r.
  replace (N.to_nat (n + len (taken evs) - n)) with (length (taken evs)) in K by (unfold len; lia).
  rewrite (firstn_snoc _ _ _ (numbered_nth _ _ _ _ K)), <- H. split; [reflexivity|]. rewrite len_app. reflexivity.
Qed.
Lemma taken_none n fl evs e : match e with Takes _ (Some _) => False | _ => True end -> taken_ok n fl evs ->
  taken_ok n fl (evs ++ [e]) /\ len (taken (evs ++ [e])) = len (taken evs).
Proof. unfold taken_ok. intros H K. rewrite taken_snoc. destruct e as [d|t [m|]|]; [|destruct H|..]; rewrite app_nil_r; auto. Qed.

Lemma run12_queue E n fl ds s0 evs s : bsearch_ok E -> flight_ok n fl ds -> n + len fl < 65536 ->
  en_rx s0 = [] -> en_peer_hs s0 = n -> run12 E ds s0 evs s ->
  en_peer_hs s = n + len (taken evs) /\ taken_ok n fl evs /\
  exists have, queue_ok n (n + len (taken evs)) fl ds have (arrived evs) (en_rx s).
Proof.
  intros BS F Hs Hr0 Hp0. induction 1 as [|evs s inc d r s' H IH Hd Hc Hpe Hrel Hi Hne|evs s t o s' H IH Hn|evs s s' H IH Hr Hp].
  - cbn. rewrite N.add_0_r. split; [exact Hp0|]. split; [reflexivity|]. exists []. rewrite Hr0.
    eapply queue_got; [|apply queue_empty; exact F]. intros d [].
  - destruct IH as (I1 & I2 & have & I3). destruct (taken_none n fl evs (Arrives d) Logic.I I2) as [T1 T2]. rewrite T2.
    destruct (insert12_queue E n fl ds _ have (arrived evs) s d inc r s' BS F I3 I1 Hd Hc Hpe Hrel Hi Hne) as (J1 & have' & J2).
    split; [exact J1|]. split; [exact T1|]. exists have'. apply queue_arrive. exact J2.
  - destruct IH as (I1 & I2 & have & I3).
    pose proof (next12_queue n fl ds _ have (arrived evs) s t o s' F I3 ltac:(lia) Hs I1 Hn) as K.
    destruct o as [msg|]; cbn [option_map].
    + destruct K as (m & K1 & K2 & K3 & K4 & K5 & _ & K6 & K7). rewrite K3, K4, K5.
      destruct (taken_one n fl evs t m I2 K1) as [T1 T2]. rewrite T2, N.add_assoc.
      split; [exact K6|]. split; [exact T1|]. exists have. apply queue_other; [discriminate|exact K7].
    + subst s'. destruct (taken_none n fl evs (Takes t None) Logic.I I2) as [T1 T2]. rewrite T2.
      split; [exact I1|]. split; [exact T1|]. exists have. apply queue_other; [discriminate|exact I3].
  - destruct IH as (I1 & I2 & have & I3). destruct (taken_none n fl evs Other Logic.I I2) as [T1 T2]. rewrite T2. split; [congruence|]. split; [exact T1|].
    destruct Hr as [->| ->]; [exists have; apply queue_other; [discriminate|exact I3]|].
    destruct (queue_purge n fl ds F _ _ _ _ I3) as (have' & J). exists have'. apply queue_other; [discriminate|exact J].
Qed.

Lemma run13_queue E n fl ds s0 evs s : bsearch_ok E -> flight_ok n fl ds -> n + len fl < 65536 ->
  g_rx s0 = [] -> g_peer_hs s0 = n -> run13 E ds s0 evs s ->
  g_peer_hs s = n + len (taken evs) /\ taken_ok n fl evs /\
  exists have, queue_ok n (n + len (taken evs)) fl ds have (arrived evs) (g_rx s).
Proof.
  intros BS F Hs Hr0 Hp0. induction 1 as [|evs s inc d r s' H IH Hd Hc Hrel Hi Hne|evs s u w t s' H IH Hn|evs s u w t msg s1 s' H IH Hn Ha|evs s s' H IH Hr Hp].
  - cbn. rewrite N.add_0_r. split; [exact Hp0|]. split; [reflexivity|]. exists []. rewrite Hr0.
    eapply queue_got; [|apply queue_empty; exact F]. intros d [].
  - destruct IH as (I1 & I2 & have & I3). destruct (taken_none n fl evs (Arrives d) Logic.I I2) as [T1 T2]. rewrite T2.
    destruct (insert13_queue E n fl ds _ have (arrived evs) s d inc r s' BS F I3 I1 Hd Hc Hrel Hi Hne) as (J1 & have' & J2).
    split; [exact J1|]. split; [exact T1|]. exists have'. apply queue_arrive. exact J2.
  - destruct IH as (I1 & I2 & have & I3).
    pose proof (next13_queue n fl ds _ have (arrived evs) s u w t None s' F I3 ltac:(lia) I1 Hn) as K. cbv beta iota in K.
    subst s'. destruct (taken_none n fl evs (Takes t None) Logic.I I2) as [T1 T2]. rewrite T2.
    split; [exact I1|]. split; [exact T1|]. exists have. apply queue_other; [discriminate|exact I3].
  - destruct IH as (I1 & I2 & have & I3).
    pose proof (next13_queue n fl ds _ have (arrived evs) s u w t (Some msg) s1 F I3 ltac:(lia) I1 Hn) as K. cbv beta iota in K.
    destruct K as (m & K1 & K2 & K3 & K4 & K5 & _ & K6 & K7). rewrite K3, K4, K5.
    destruct (taken_one n fl evs t m I2 K1) as [T1 T2]. rewrite T2, N.add_assoc.
    unfold advance_peer, modify in Ha. injection Ha as <-. cbn [g_peer_hs g_rx set_g_peer_hs]. rewrite K6.
    split; [|split; [exact T1|exists have; apply queue_other; [discriminate|exact K7]]].
    unfold u16. apply N.mod_small. assert (nth_error fl (N.to_nat (n + len (taken evs) - n)) <> None) as K by congruence.
    apply nth_error_Some in K. unfold len in *. lia.
  - destruct IH as (I1 & I2 & have & I3). destruct (taken_none n fl evs Other Logic.I I2) as [T1 T2]. rewrite T2. split; [congruence|]. split; [exact T1|].
    destruct Hr as [->| ->]; [exists have; apply queue_other; [discriminate|exact I3]|].
    destruct (queue_purge n fl ds F _ _ _ _ I3) as (have' & J). exists have'. apply queue_other; [discriminate|exact J].
Qed.

(** ** C10 *)

(** All datagrams that hold a fragment of message [k] have arrived. *)
Definition all_arrived (ds : list (list Frag12)) (evs : list RxEvent) (k : N) : Prop :=
  forall d f, In d ds -> In f d -> f_seq f = k -> In (Arrives d) evs.

(** Whatever the order and the number of arrivals, and whatever else happens in between:
    the messages handed over are the messages of the flight, byte for byte, in order and
    once each; and as soon as all datagrams with fragments of the next one have
    arrived it can be taken.  The code keeps at most 50 fragments of one message, and a
    body that does not parse is not handed over. *)
Theorem C10_reassembly12 : forall E n fl ds s0 evs s,
  bsearch_ok E -> flight_ok n fl ds -> n + len fl < 65536 -> en_rx s0 = [] -> en_peer_hs s0 = n ->
  run12 E ds s0 evs s ->
  taken evs = firstn (length (taken evs)) (numbered n fl) /\
  forall m body, nth_error fl (length (taken evs)) = Some m -> all_arrived ds evs (n + len (taken evs)) ->
    (length (fm_cut m) <= 50)%nat -> p_body12 (fm_type m) (en_suite s) (fm_body m) = Some (body, []) ->
    exists s', next_handshake (fm_type m) s = (Ok (Some (mkMsg (fm_type m) (n + len (taken evs)) body (fm_body m))), s').
Proof.
  intros E n fl ds s0 evs s BS F Hs Hr Hp H. destruct (run12_queue _ _ _ _ _ _ _ BS F Hs Hr Hp H) as (I1 & I2 & have & I3).
  split; [exact I2|]. intros m body Hm Ha Hl Hb.
  assert (Hm' : nth_error fl (N.to_nat (n + len (taken evs) - n)) = Some m)
    by (replace (N.to_nat (n + len (taken evs) - n)) with (length (taken evs)) by (unfold len; lia); exact Hm).
  eapply next12_progress; eauto; [lia|]. rewrite (queue_full n fl ds F _ _ _ _ I3).
  - rewrite (frags_of_msg n fl ds F) by lia. rewrite Hm'. reflexivity.
  - intros d f Hd Hf Hk. exact (Ha d f Hd Hf Hk).
Qed.
Print Assumptions C10_reassembly12.

Theorem C10_reassembly13 : forall E n fl ds s0 evs s,
  bsearch_ok E -> flight_ok n fl ds -> n + len fl < 65536 -> g_rx s0 = [] -> g_peer_hs s0 = n ->
  run13 E ds s0 evs s ->
  taken evs = firstn (length (taken evs)) (numbered n fl) /\
  forall m body, nth_error fl (length (taken evs)) = Some m -> all_arrived ds evs (n + len (taken evs)) ->
    (length (fm_cut m) <= 50)%nat -> p_body13 false (fm_type m) (g_suite s) (fm_body m) = Some (body, []) ->
    exists s', next_handshake13 (fm_type m) s = (Ok (Some (mkMsg13 (fm_type m) (n + len (taken evs)) body (fm_body m))), s').
Proof.
  intros E n fl ds s0 evs s BS F Hs Hr Hp H. destruct (run13_queue _ _ _ _ _ _ _ BS F Hs Hr Hp H) as (I1 & I2 & have & I3).
  split; [exact I2|]. intros m body Hm Ha Hl Hb.
  assert (Hm' : nth_error fl (N.to_nat (n + len (taken evs) - n)) = Some m)
    by (replace (N.to_nat (n + len (taken evs) - n)) with (length (taken evs)) by (unfold len; lia); exact Hm).
  unfold next_handshake13. eapply next13_progress; eauto; [lia|]. rewrite (queue_full n fl ds F _ _ _ _ I3).
  - rewrite (frags_of_msg n fl ds F) by lia. rewrite Hm'. reflexivity.
  - intros d f Hd Hf Hk. exact (Ha d f Hd Hf Hk).
Qed.
Print Assumptions C10_reassembly13.

(** ** Unprotected datagrams on the wire *)
Definition frag_bytes (f : Frag12) : bytes := s_hs_header (f_type f) (f_length f) (f_seq f) (f_off f) (f_flen f) ++ f_data f.
(** A fragment that fits its header fields and one record. *)
Definition frag_fits (f : Frag12) : Prop :=
  f_type f < 256 /\ f_length f < 2 ^ 24 /\ f_seq f < 65536 /\ f_off f < 2 ^ 24 /\ f_flen f = len (f_data f) /\
  len (f_data f) < 65000 /\ f_handled f = false.
(** One record with number [fst p] for each fragment [snd p]. *)
Definition wire12 (ps : list (N * Frag12)) : bytes :=
  flat_map (fun p => s_rec12 CT_HS V_DTLS12 0 (fst p) (frag_bytes (snd p))) ps.

Lemma frag_bytes_len f : frag_fits f -> len (frag_bytes f) = 12 + len (f_data f).
Proof. intros _. unfold frag_bytes, s_hs_header. rewrite !len_app. unfold len at 1 2 3 4 5. rewrite !be_length. lia. Qed.
Lemma frag_bytes_parse f : frag_fits f -> p_frags12 8 (frag_bytes f) = [f].
Proof.
  intros F. destruct F as (H1 & H2 & H3 & H4 & H5 & H6 & H7).
  assert (P : p_frag12 (frag_bytes f) = Some (f, [])).
  { unfold frag_bytes. rewrite H5. rewrite <- (app_nil_r (f_data f)) at 2. rewrite p_frag12_s by (repeat split; try assumption; cbn in *; lia).
    rewrite <- H5, <- H7. destruct f; reflexivity. }
  assert (N : exists b t, frag_bytes f = b :: t) by (unfold frag_bytes, s_hs_header; cbn [be app]; eauto).
  destruct N as (b & t & N). cbn [p_frags12]. rewrite N in *. rewrite P. reflexivity.
Qed.
Definition wire_rec (p : N * Frag12) : Rec12 :=
  mkRec CT_HS V_DTLS12 0 (fst p) (len (frag_bytes (snd p))) (frag_bytes (snd p)) [snd p] false
    (s_rec12 CT_HS V_DTLS12 0 (fst p) (frag_bytes (snd p))).
Lemma wire_rec_fields p : fst p < 2 ^ 48 -> frag_fits (snd p) -> rec_fields CT_HS V_DTLS12 0 (fst p) (frag_bytes (snd p)).
Proof.
  intros H1 H2. pose proof (frag_bytes_len _ H2) as L. destruct H2 as (_ & _ & _ & _ & _ & H2 & _).
  repeat split; try (cbn; lia); try assumption; lia.
Qed.
Lemma s_rec12_len ct v ep sq f : length (s_rec12 ct v ep sq f) = (13 + length f)%nat.
Proof. unfold s_rec12. rewrite !app_length, !be_length. lia. Qed.
Lemma s_rec12_lenfield ct v ep sq f rest : len f < 65536 -> unbe (firstn 2 (skipn 11 (s_rec12 ct v ep sq f ++ rest))) = len f.
Proof.
  intros H. unfold s_rec12. rewrite <- !app_assoc. rewrite (app_assoc (be 1 ct)), (app_assoc (be 1 ct ++ be 2 v)), (app_assoc ((be 1 ct ++ be 2 v) ++ be 2 ep)).
  rewrite skipn_app, skipn_all2 by (rewrite !app_length, !be_length; lia). cbn [app].
  replace (11 - length (((be 1 ct ++ be 2 v) ++ be 2 ep) ++ be 6 sq))%nat with 0%nat by (rewrite !app_length, !be_length; lia). cbn [skipn].
  rewrite firstn_app, firstn_all2 by (rewrite be_length; lia). rewrite be_length, Nat.sub_diag. cbn [firstn]. rewrite app_nil_r.
  apply unbe_be_small. exact H.
Qed.
Lemma p_parsed_wire p : fst p < 2 ^ 48 -> frag_fits (snd p) ->
  p_parsed12 0 (s_rec12 CT_HS V_DTLS12 0 (fst p) (frag_bytes (snd p))) = Some (wire_rec p).
Proof.
  intros H1 H2. unfold p_parsed12. pose proof (p_rec12_s CT_HS V_DTLS12 0 (fst p) (frag_bytes (snd p)) [] (wire_rec_fields p H1 H2)) as P.
  rewrite app_nil_r in P. rewrite P by (unfold valid_header12, V_DTLS12, CT_HS; lia). unfold wire_rec.
  rewrite N.eqb_refl, (frag_bytes_parse _ H2). reflexivity.
Qed.

Lemma parse_loop_wire E s : en_penc s = false -> forall ps fuel room, Forall (fun p => fst p < 2 ^ 48 /\ frag_fits (snd p)) ps ->
  (length ps <= room)%nat -> (length (wire12 ps) <= fuel)%nat ->
  parse_loop E fuel room (wire12 ps) s = (Ok (map wire_rec ps), s).
Proof.
  intros Hp. induction ps as [|p ps IH]; intros fuel room HF Hr Hf.
  - cbn. destruct fuel; reflexivity.
  - inversion HF as [|? ? [H1 H2] HF']; subst. cbn [wire12 flat_map] in *. fold (wire12 ps) in *.
    set (w := s_rec12 CT_HS V_DTLS12 0 (fst p) (frag_bytes (snd p))) in *.
    assert (Lw : length w = (13 + length (frag_bytes (snd p)))%nat) by apply s_rec12_len.
    assert (Lf : len (frag_bytes (snd p)) < 65536) by (rewrite (frag_bytes_len _ H2); destruct H2 as (_ & _ & _ & _ & _ & H2 & _); lia).
    rewrite app_length in Hf. destruct fuel as [|fuel]; [lia|]. destruct room as [|room]; [cbn in Hr; lia|].
    destruct (w ++ wire12 ps) as [|b0 t0] eqn:Hw; [exfalso; apply (f_equal (@length N)) in Hw; rewrite app_length in Hw; cbn in Hw; lia|].
    cbn [parse_loop]. rewrite <- Hw. replace (Nat.ltb (length (w ++ wire12 ps)) HEADER_LEN) with false
      by (symmetry; apply Nat.ltb_ge; rewrite app_length; unfold HEADER_LEN; lia).
    unfold w at 1 2 3 4 5. rewrite s_rec12_lenfield by exact Lf. fold w.
    replace (HEADER_LEN + N.to_nat (len (frag_bytes (snd p))))%nat with (length w) by (unfold HEADER_LEN, len; lia).
    replace (Nat.ltb (length (w ++ wire12 ps)) (length w)) with false by (symmetry; apply Nat.ltb_ge; rewrite app_length; lia).
    rewrite firstn_app, Nat.sub_diag, firstn_all, skipn_app, Nat.sub_diag, skipn_all. cbn [firstn skipn app]. rewrite app_nil_r.
    assert (RP : rec_parse E w s = (Ok (Some (wire_rec p)), s)).
    { unfold rec_parse. unfold w. rewrite (p_parsed_wire p H1 H2). unfold bind, get. cbv beta iota. cbn [r_epoch wire_rec]. reflexivity. }
    unfold bind at 1. rewrite RP. cbv beta iota. unfold bind at 1. rewrite (IH fuel room HF' ltac:(cbn in Hr; lia) ltac:(lia)). reflexivity.
Qed.

(** Before protection is on, such a datagram is handed to the queue as it is. *)
Theorem C10_datagram12 : forall E s ps, en_penc s = false -> ps <> [] -> (length ps <= 8)%nat ->
  Forall (fun p => fst p < 2 ^ 48 /\ frag_fits (snd p)) ps ->
  exists inc, carries inc (map snd ps) /\ eng12_parse_packet E (wire12 ps) s = insert_incoming E inc s.
Proof.
  intros E s ps Hp Hn Hl HF. exists (map wire_rec ps). split.
  - unfold carries. rewrite !map_map. reflexivity.
  - unfold eng12_parse_packet, records_parse, bind. rewrite (parse_loop_wire E s Hp ps _ _ HF Hl (le_n _)).
    assert (C : classify_all (map wire_rec ps) s = (Ok (map wire_rec ps), s)).
    { clear Hn Hl HF. induction ps as [|p ps IH]; [reflexivity|]. cbn [map classify_all]. unfold bind at 1.
      assert (K : classify_record (wire_rec p) s = (Ok (Some (wire_rec p)), s)).
      { unfold classify_record, bind, get. cbv beta iota. cbn [r_ctype r_epoch wire_rec]. rewrite Hp.
        unfold CT_HS, CT_CCS, CT_ALERT, CT_APP. cbn. rewrite andb_false_r. reflexivity. }
      rewrite K. cbv beta iota. unfold bind at 1. rewrite IH. reflexivity. }
    rewrite C. destruct ps as [|p ps]; [congruence|]. reflexivity.
Qed.
Print Assumptions C10_datagram12.

(** DTLS 1.3 plaintext records. *)
Definition wire13 (ps : list (N * Frag12)) : bytes :=
  flat_map (fun p => s_plain13 CT_HS 0 (fst p) (frag_bytes (snd p))) ps.
Lemma plain_rec12 ct sq f : s_plain13 ct 0 sq f = s_rec12 ct V_DTLS12 0 sq f.
Proof. reflexivity. Qed.
Lemma p_parsed_wire13 p : fst p < 2 ^ 48 -> frag_fits (snd p) ->
  p_parsed13 (s_plain13 CT_HS 0 (fst p) (frag_bytes (snd p))) = Some (wire_rec p, 13%nat).
Proof.
  intros H1 H2. destruct (wire_rec_fields p H1 H2) as (R1 & R2 & R3 & R4 & R5). rewrite plain_rec12.
  unfold p_parsed13, p_rec13.
  assert (exists t, s_rec12 CT_HS V_DTLS12 0 (fst p) (frag_bytes (snd p)) = 22 :: t) as (t & Ht) by (unfold s_rec12; cbn; eauto).
  rewrite Ht. change (is_ct_header 22) with false. cbv iota. rewrite <- Ht. unfold p_plain13, s_rec12.
  rewrite p_u8_app by assumption. change (negb (memN CT_HS [CT_ALERT; CT_HS; CT_ACK])) with false. cbv iota.
  rewrite p_u16_app by assumption. change (negb ((V_DTLS12 =? V_DTLS10) || (V_DTLS12 =? V_DTLS12))) with false. cbv iota.
  rewrite p_u16_app by assumption. change (negb (0 =? 0)) with false. cbv iota.
  rewrite p_u48_app by (cbn in *; lia). rewrite p_u16_app by assumption.
  unfold len at 1. rewrite Nat2N.id. rewrite <- (app_nil_r (frag_bytes (snd p))) at 2. rewrite take_app. cbn [d_ctype d_epoch d_seq d_length d_frag d_start].
  unfold rec13_of. change (CT_HS =? CT_HS) with true. cbv iota. rewrite (frag_bytes_parse _ H2). reflexivity.
Qed.
Lemma parse_loop_wire13 E s : forall ps fuel room, Forall (fun p => fst p < 2 ^ 48 /\ frag_fits (snd p)) ps ->
  (length ps <= room)%nat -> (length (wire13 ps) <= fuel)%nat ->
  parse_loop13 E fuel room (wire13 ps) s = (Ok (map wire_rec ps), s).
Proof.
  induction ps as [|p ps IH]; intros fuel room HF Hr Hf.
  - cbn. destruct fuel; reflexivity.
  - inversion HF as [|? ? [H1 H2] HF']; subst. cbn [wire13 flat_map] in *. fold (wire13 ps) in *. rewrite plain_rec12 in *.
    set (w := s_rec12 CT_HS V_DTLS12 0 (fst p) (frag_bytes (snd p))) in *.
    assert (Lw : length w = (13 + length (frag_bytes (snd p)))%nat) by apply s_rec12_len.
    assert (Lf : len (frag_bytes (snd p)) < 65536) by (rewrite (frag_bytes_len _ H2); destruct H2 as (_ & _ & _ & _ & _ & H2 & _); lia).
    rewrite app_length in Hf. destruct fuel as [|fuel]; [lia|]. destruct room as [|room]; [cbn in Hr; lia|].
    assert (Hhd : hd 0 w = 22) by (unfold w, s_rec12; reflexivity).
    assert (Hhd2 : hd 0 (w ++ wire13 ps) = 22) by (unfold w, s_rec12; reflexivity).
    destruct (w ++ wire13 ps) as [|b0 t0] eqn:Hw; [exfalso; apply (f_equal (@length N)) in Hw; rewrite app_length in Hw; cbn in Hw; lia|].
    cbn [parse_loop13]. rewrite <- Hw in *.
    assert (RB : rec_bound13 (w ++ wire13 ps) = BRec (length w)).
    { unfold rec_bound13. rewrite Hhd2. change (is_ct_header 22) with false. cbv iota zeta.
      replace (Nat.ltb (length (w ++ wire13 ps)) 13) with false by (symmetry; apply Nat.ltb_ge; rewrite app_length; lia).
      unfold w at 1 2 3. rewrite s_rec12_lenfield by exact Lf. fold w.
      replace (13 + N.to_nat (len (frag_bytes (snd p))))%nat with (length w) by (unfold len; lia).
      replace (Nat.ltb (length (w ++ wire13 ps)) (length w)) with false by (symmetry; apply Nat.ltb_ge; rewrite app_length; lia). reflexivity. }
    rewrite RB.
    rewrite firstn_app, Nat.sub_diag, firstn_all, skipn_app, Nat.sub_diag, skipn_all. cbn [firstn skipn app]. rewrite app_nil_r.
    assert (RP : rec_parse13 E w s = (Ok (Some (wire_rec p)), s)).
    { unfold rec_parse13. rewrite Hhd. change (is_ct_header 22) with false. cbv zeta. cbn [andb negb orb].
      unfold bind, get, ret. cbv beta iota. unfold w. rewrite <- plain_rec12, (p_parsed_wire13 p H1 H2). reflexivity. }
    unfold bind at 1. rewrite RP. cbv beta iota. unfold bind at 1. rewrite (IH fuel room HF' ltac:(cbn in Hr; lia) ltac:(lia)). reflexivity.
Qed.
Theorem C10_datagram13 : forall E s ps, g_cn s = None -> ps <> [] -> (length ps <= 16)%nat ->
  Forall (fun p => fst p < 2 ^ 48 /\ frag_fits (snd p)) ps ->
  exists inc, carries inc (map snd ps) /\ eng13_parse_packet E (wire13 ps) s = insert_incoming13 E inc s.
Proof.
  intros E s ps Hc Hn Hl HF. exists (map wire_rec ps). split.
  - unfold carries. rewrite !map_map. reflexivity.
  - unfold eng13_parse_packet, records_parse13, bind. rewrite (parse_loop_wire13 E s ps _ _ HF Hl (le_n _)).
    assert (C : classify_all13 E (map wire_rec ps) s = (Ok (map wire_rec ps), s)).
    { clear Hn Hl HF. induction ps as [|p ps IH]; [reflexivity|]. cbn [map classify_all13]. unfold bind at 1.
      assert (K : classify_record13 E (wire_rec p) s = (Ok (Some (wire_rec p)), s)).
      { unfold classify_record13, bind, get. cbv beta iota. rewrite Hc. cbn [r_ctype r_epoch wire_rec].
        unfold CT_HS, CT_CCS, CT_ALERT, CT_ACK. cbn. rewrite andb_false_r. reflexivity. }
      rewrite K. cbv beta iota. unfold bind at 1. rewrite IH. reflexivity. }
    rewrite C. destruct ps as [|p ps]; [congruence|]. reflexivity.
Qed.
Print Assumptions C10_datagram13.

(** ** C12 *)

(** The bytes a message adds to a transcript, from its type, number and body. *)
Definition added12 (t n : N) (b : bytes) : bytes := s_hs_header t (len b) n 0 (len b) ++ b.
Definition added13 (t : N) (b : bytes) : bytes := be 1 t ++ be 3 (len b) ++ b.

Definition same_transcript12 (a b : Eng12) : Prop := en_transcript b = en_transcript a.
Lemma frag_loop_transcript12 E fuel mt total seq ep prot off rest : pres same_transcript12 (frag_loop E fuel mt total seq ep prot off rest).
Proof.
  assert (PO : preorder same_transcript12) by (split; [intro; reflexivity|intros a b c A B; unfold same_transcript12 in *; congruence]).
  apply fr_frag_loop; first [exact PO|intros; reflexivity].
Qed.

(** What the sender adds does not depend on the MTU, on the state of the queue, or on
    whether the message could be queued at all. *)
Theorem C12_sender12 : forall E mt mk body s s1 r s', mk s = (Ok body, s1) -> len body < 2 ^ 24 ->
  create_handshake E mt mk s = (r, s') -> en_transcript s' = en_transcript s1 ++ added12 mt (en_next_hs s1) body.
Proof.
  intros E mt mk body s s1 r s' Hmk Hl H. unfold create_handshake, bind at 1 in H. rewrite Hmk in H. cbv beta iota in H.
  unfold bind at 1, get in H. cbv beta iota zeta in H. unfold bind at 1, modify at 1 in H. cbv beta iota in H.
  unfold bind at 1, modify at 1 in H. cbv beta iota in H.
  assert (U : u32 (len body) = len body) by (unfold u32; apply N.mod_small; lia). rewrite U in H.
  assert (PO : preorder same_transcript12) by (split; [intro; reflexivity|intros a b c A B; unfold same_transcript12 in *; congruence]).
  match type of H with ?m ?e = _ => assert (P : same_transcript12 e (snd (m e))) end.
  { match goal with |- same_transcript12 ?e (snd (?m ?e)) => apply (fun P : pres same_transcript12 m => P e) end.
    presauto PO ltac:(first [apply frag_loop_transcript12|apply fr_create_record; first [exact PO|intros; reflexivity]]). }
  rewrite H in P. cbn [snd] in P. unfold same_transcript12 in P. rewrite P. reflexivity.
Qed.
Print Assumptions C12_sender12.

Definition same_transcript13 (a b : Eng13) : Prop := g_transcript b = g_transcript a.
Lemma same_transcript13_po : preorder same_transcript13.
Proof. split; [intro; reflexivity|intros a b c A B; unfold same_transcript13 in *; congruence]. Qed.
Theorem C12_sender13 : forall E mt mk body s s1 r s', mk s = (Ok body, s1) -> len body < 2 ^ 24 ->
  create_handshake13 E mt mk s = (r, s') -> g_transcript s' = g_transcript s1 ++ added13 mt body.
Proof.
  intros E mt mk body s s1 r s' Hmk Hl H. unfold create_handshake13, bind at 1 in H. rewrite Hmk in H. cbv beta iota in H.
  unfold bind at 1, get in H. cbv beta iota zeta in H. unfold bind at 1, modify at 1 in H. cbv beta iota in H.
  unfold bind at 1, modify at 1 in H. cbv beta iota in H.
  assert (U : u32 (len body) = len body) by (unfold u32; apply N.mod_small; lia). rewrite U in H.
  pose proof same_transcript13_po as PO.
  match type of H with ?m ?e = _ => assert (P : same_transcript13 e (snd (m e))) end.
  { match goal with |- same_transcript13 ?e (snd (?m ?e)) => apply (fun P : pres same_transcript13 m => P e) end.
    presauto PO ltac:(first [apply fr_frag_loop13; [exact PO|intros..]|idtac];
      first [apply op_create_plain; first [exact PO|intros; reflexivity]
            |apply op_create_cipher; first [exact PO|intros; reflexivity]
            |apply op_suite_provider; exact PO]). }
  rewrite H in P. cbn [snd] in P. unfold same_transcript13 in P. rewrite P. reflexivity.
Qed.
Print Assumptions C12_sender13.

(** A message of a flight adds the same bytes to the transcripts of its sender and of a
    receiver that takes it, in every execution: whatever the sender's MTU and state, the
    pieces, the datagrams, their order and their repetition. *)
Theorem C12_transcripts12 : forall E E' n fl ds s0 evs s t msg s' m mk a a1 r a',
  bsearch_ok E -> flight_ok n fl ds -> n + len fl < 65536 -> en_rx s0 = [] -> en_peer_hs s0 = n ->
  run12 E ds s0 evs s -> next_handshake t s = (Ok (Some msg), s') ->
  nth_error fl (length (taken evs)) = Some m ->
  mk a = (Ok (fm_body m), a1) -> en_next_hs a1 = n + len (taken evs) -> len (fm_body m) < 2 ^ 24 ->
  create_handshake E' (fm_type m) mk a = (r, a') ->
  exists x, x = added12 (fm_type m) (n + len (taken evs)) (fm_body m) /\
    en_transcript a' = en_transcript a1 ++ x /\ en_transcript s' = en_transcript s ++ x.
Proof.
  intros E E' n fl ds s0 evs s t msg s' m mk a a1 r a' BS F Hs Hr Hp H Hn Hm Hmk Hnx Hl Hc.
  destruct (run12_queue _ _ _ _ _ _ _ BS F Hs Hr Hp H) as (I1 & I2 & have & I3).
  pose proof (next12_queue n fl ds _ have (arrived evs) s t (Some msg) s' F I3 ltac:(lia) Hs I1 Hn) as K. cbv beta iota in K.
  destruct K as (m' & K1 & K2 & K3 & K4 & K5 & K6 & _).
  replace (N.to_nat (n + len (taken evs) - n)) with (length (taken evs)) in K1 by (unfold len; lia).
  assert (m' = m) by congruence. subst m'. eexists. split; [reflexivity|]. split; [|exact K6].
  rewrite (C12_sender12 _ _ _ _ _ _ _ _ Hmk Hl Hc), Hnx. reflexivity.
Qed.
Print Assumptions C12_transcripts12.
(** In DTLS 1.3 the KeyUpdate messages after the handshake are taken without being added
    ([w] is false). *)
Theorem C12_transcripts13 : forall E E' n fl ds s0 evs s u t msg s' m mk a a1 r a',
  bsearch_ok E -> flight_ok n fl ds -> n + len fl < 65536 -> g_rx s0 = [] -> g_peer_hs s0 = n ->
  run13 E ds s0 evs s -> next_handshake13_gen u true t s = (Ok (Some msg), s') ->
  nth_error fl (length (taken evs)) = Some m ->
  mk a = (Ok (fm_body m), a1) -> len (fm_body m) < 2 ^ 24 ->
  create_handshake13 E' (fm_type m) mk a = (r, a') ->
  exists x, x = added13 (fm_type m) (fm_body m) /\
    g_transcript a' = g_transcript a1 ++ x /\ g_transcript s' = g_transcript s ++ x.
Proof.
  intros E E' n fl ds s0 evs s u t msg s' m mk a a1 r a' BS F Hs Hr Hp H Hn Hm Hmk Hl Hc.
  destruct (run13_queue _ _ _ _ _ _ _ BS F Hs Hr Hp H) as (I1 & I2 & have & I3).
  pose proof (next13_queue n fl ds _ have (arrived evs) s u true t (Some msg) s' F I3 ltac:(lia) I1 Hn) as K. cbv beta iota in K.
  destruct K as (m' & K1 & K2 & K3 & K4 & K5 & K6 & _).
  replace (N.to_nat (n + len (taken evs) - n)) with (length (taken evs)) in K1 by (unfold len; lia).
  assert (m' = m) by congruence. subst m'. eexists. split; [reflexivity|]. split; [|exact K6].
  exact (C12_sender13 _ _ _ _ _ _ _ _ Hmk Hl Hc).
Qed.
Print Assumptions C12_transcripts13.

(** Two messages, one in three pieces and one empty; the datagrams come in the wrong order,
    one of them twice, while messages are asked for too early. *)
Definition ex_flight (second : FMsg) : list FMsg :=
  [mkFMsg MT_CertificateVerify [4;3;0;8;5;6;7;8;9;10;11;12] [[4;3;0;8;5]; [6;7]; [8;9;10;11;12]]; second].
Definition ex_flight12 := ex_flight (mkFMsg MT_ServerHelloDone [] [[]]).
Definition ex_flight13 := ex_flight (mkFMsg MT_KeyUpdate [1] [[1]]).
Definition ex_d1 (fl : list FMsg) : list Frag12 := firstn 1 (flight_frags 0 fl).
Definition ex_d2 (fl : list FMsg) : list Frag12 := firstn 1 (skipn 1 (flight_frags 0 fl)).
Definition ex_d3 (fl : list FMsg) : list Frag12 := skipn 2 (flight_frags 0 fl).
Definition ex_ds (fl : list FMsg) := [ex_d1 fl; ex_d2 fl; ex_d3 fl].
Definition ex_recs (d : list Frag12) : list Rec12 := map (fun f => wire_rec (f_off f, f)) d.
Lemma ex_carries d : carries (ex_recs d) d.
Proof. unfold carries, ex_recs. rewrite map_map. reflexivity. Qed.
Lemma ex_flight_ok12 : flight_ok 0 ex_flight12 (ex_ds ex_flight12).
Proof.
  split; [|split; [repeat constructor; discriminate|reflexivity]].
  repeat constructor; try discriminate; reflexivity.
Qed.
Lemma ex_flight_ok13 : flight_ok 0 ex_flight13 (ex_ds ex_flight13).
Proof.
  split; [|split; [repeat constructor; discriminate|reflexivity]].
  repeat constructor; try discriminate; reflexivity.
Qed.
(** Executions as a function: arrival of the datagram with some index, or taking. *)
Inductive Do := DArrive (i : nat) | DTake (t : N).
Fixpoint play12 (E : Env) (ds : list (list Frag12)) (l : list Do) (evs : list RxEvent) (s : Eng12) : option (list RxEvent * Eng12) :=
  match l with
  | [] => Some (evs, s)
  | DArrive i :: l =>
    match nth_error ds i with
    | None => None
    | Some d =>
      if en_penc s || en_release s then None
      else match insert_incoming E (ex_recs d) s with
           | (Ok _, s') => play12 E ds l (evs ++ [Arrives d]) s'
           | _ => None
           end
    end
  | DTake t :: l =>
    match next_handshake t s with
    | (Ok o, s') => play12 E ds l (evs ++ [Takes t (option_map (fun m => (m_type m, m_seq m, m_raw m)) o)]) s'
    | _ => None
    end
  end.
Lemma play12_run E ds s0 l : forall evs s r, run12 E ds s0 evs s -> play12 E ds l evs s = Some r -> run12 E ds s0 (fst r) (snd r).
Proof.
  induction l as [|x l IH]; intros evs s r H P; cbn [play12] in P; [injection P as <-; exact H|]. destruct x as [i|t].
  - destruct (nth_error ds i) as [d|] eqn:Hd; [|discriminate]. destruct (en_penc s || en_release s) eqn:Hg; [discriminate|].
    apply orb_false_iff in Hg. destruct Hg as [G1 G2].
    destruct (insert_incoming E (ex_recs d) s) as [[u|?|?] s'] eqn:Hi; try discriminate. eapply IH; [|exact P].
    eapply run12_arrive; [exact H|eapply nth_error_In; exact Hd|apply ex_carries|congruence|exact G2|exact Hi|discriminate].
  - destruct (next_handshake t s) as [[o|?|?] s'] eqn:Hi; try discriminate. eapply IH; [|exact P]. eapply run12_take; eassumption.
Qed.
Fixpoint play13 (E : Env) (ds : list (list Frag12)) (l : list Do) (evs : list RxEvent) (s : Eng13) : option (list RxEvent * Eng13) :=
  match l with
  | [] => Some (evs, s)
  | DArrive i :: l =>
    match nth_error ds i with
    | None => None
    | Some d =>
      if g_release s then None
      else match insert_incoming13 E (ex_recs d) s with
           | (Ok _, s') => play13 E ds l (evs ++ [Arrives d]) s'
           | _ => None
           end
    end
  | DTake t :: l =>
    match next_handshake13 t s with
    | (Ok None, s') => play13 E ds l (evs ++ [Takes t None]) s'
    | (Ok (Some m), s') => play13 E ds l (evs ++ [Takes t (Some (n_type m, n_seq m, n_raw m))]) (snd (advance_peer s'))
    | _ => None
    end
  end.
Lemma play13_run E ds s0 l : forall evs s r, run13 E ds s0 evs s -> play13 E ds l evs s = Some r -> run13 E ds s0 (fst r) (snd r).
Proof.
  induction l as [|x l IH]; intros evs s r H P; cbn [play13] in P; [injection P as <-; exact H|]. destruct x as [i|t].
  - destruct (nth_error ds i) as [d|] eqn:Hd; [|discriminate]. destruct (g_release s) eqn:Hg; [discriminate|].
    destruct (insert_incoming13 E (ex_recs d) s) as [[u|?|?] s'] eqn:Hi; try discriminate. eapply IH; [|exact P].
    eapply run13_arrive; [exact H|eapply nth_error_In; exact Hd|apply ex_carries|exact Hg|exact Hi|discriminate].
  - destruct (next_handshake13 t s) as [[[m|]|?|?] s'] eqn:Hi; try discriminate; (eapply IH; [|exact P]).
    + eapply run13_take; [exact H|exact Hi|reflexivity].
    + eapply run13_none; [exact H|exact Hi].
Qed.
Definition ex12 : Eng12 := eng12_new toy config_default AuthPsk.
Definition ex13 : Eng13 := eng13_new toy config_default [1] (mkKey [1] 0 0 []) false.
Definition ex_do (t : N) : list Do :=
  [DArrive 2; DTake MT_CertificateVerify; DArrive 0; DArrive 2; DTake t; DTake MT_CertificateVerify; DArrive 1; DTake t; DTake MT_CertificateVerify; DArrive 1; DTake t; DTake t].
Definition is_run {S} (P : list RxEvent -> S -> Prop) (o : option (list RxEvent * S)) (l : list (N * N * bytes)) : Prop :=
  match o with Some r => P (fst r) (snd r) /\ taken (fst r) = l | None => False end.
Example C10_reassembly12_ex :
  bsearch_ok toy /\ flight_ok 0 ex_flight12 (ex_ds ex_flight12) /\ 0 + len ex_flight12 < 65536 /\ en_rx ex12 = [] /\ en_peer_hs ex12 = 0 /\
  is_run (run12 toy (ex_ds ex_flight12) ex12) (play12 toy (ex_ds ex_flight12) (ex_do MT_ServerHelloDone) [] ex12)
    [(MT_CertificateVerify, 0, [4;3;0;8;5;6;7;8;9;10;11;12]); (MT_ServerHelloDone, 1, [])].
Proof.
  split; [exact toy_bsearch_ok|]. split; [exact ex_flight_ok12|]. split; [reflexivity|]. split; [reflexivity|]. split; [reflexivity|].
  assert (K : exists r, play12 toy (ex_ds ex_flight12) (ex_do MT_ServerHelloDone) [] ex12 = Some r /\
    taken (fst r) = [(MT_CertificateVerify, 0, [4;3;0;8;5;6;7;8;9;10;11;12]); (MT_ServerHelloDone, 1, [])]).
  { eexists. split; [vm_compute; reflexivity|reflexivity]. }
  destruct K as (r & K1 & K2). rewrite K1. split; [|exact K2]. eapply play12_run; [apply run12_start|exact K1].
Qed.
Example C10_reassembly13_ex :
  bsearch_ok toy /\ flight_ok 0 ex_flight13 (ex_ds ex_flight13) /\ 0 + len ex_flight13 < 65536 /\ g_rx ex13 = [] /\ g_peer_hs ex13 = 0 /\
  is_run (run13 toy (ex_ds ex_flight13) ex13) (play13 toy (ex_ds ex_flight13) (ex_do MT_KeyUpdate) [] ex13)
    [(MT_CertificateVerify, 0, [4;3;0;8;5;6;7;8;9;10;11;12]); (MT_KeyUpdate, 1, [1])].
Proof.
  split; [exact toy_bsearch_ok|]. split; [exact ex_flight_ok13|]. split; [reflexivity|]. split; [reflexivity|]. split; [reflexivity|].
  assert (K : exists r, play13 toy (ex_ds ex_flight13) (ex_do MT_KeyUpdate) [] ex13 = Some r /\
    taken (fst r) = [(MT_CertificateVerify, 0, [4;3;0;8;5;6;7;8;9;10;11;12]); (MT_KeyUpdate, 1, [1])]).
  { eexists. split; [vm_compute; reflexivity|reflexivity]. }
  destruct K as (r & K1 & K2). rewrite K1. split; [|exact K2]. eapply play13_run; [apply run13_start|exact K1].
Qed.
(** The same flight on the wire, in one datagram. *)
Example C10_datagram_ex :
  Forall (fun p => fst p < 2 ^ 48 /\ frag_fits (snd p)) (map (fun f => (f_off f, f)) (flight_frags 0 ex_flight12)) /\
  Forall (fun p => fst p < 2 ^ 48 /\ frag_fits (snd p)) (map (fun f => (f_off f, f)) (flight_frags 0 ex_flight13)).
Proof. split; repeat constructor. Qed.
(** A sender with a small MTU and the receiver above add the same bytes. *)
Definition ex_narrow : Config := mkConfig 64 30 10 true true 1000000000 4 40000000000 (2 ^ 23) None None None None.
Definition ex_sender12 : res unit * Eng12 := create_handshake toy MT_CertificateVerify (ret (repeat 7 100)) (eng12_new toy ex_narrow AuthPsk).
Definition ex_sender13 : res unit * Eng13 := create_handshake13 toy MT_ClientHello (ret (repeat 7 100)) (eng13_new toy ex_narrow [1] (mkKey [1] 0 0 []) true).
Example C12_sender_ex :
  (length (en_tx (snd ex_sender12)) > 1)%nat /\ en_transcript (snd ex_sender12) = added12 MT_CertificateVerify 0 (repeat 7 100) /\
  (length (g_tx (snd ex_sender13)) > 1)%nat /\ g_transcript (snd ex_sender13) = added13 MT_ClientHello (repeat 7 100).
Proof. vm_compute. repeat split; repeat constructor. Qed.
