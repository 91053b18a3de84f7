(** C13: record numbers and nonces of DTLS 1.3. *)
From Verif Require Import Prelude PreludeFacts Types Codec Codec12 Codec13 Record12 Record13 Monad MonadFacts Timer
  Env Config Aead Prf Window AuxProofs SeqRecon Engine12 Client12 Engine13 Client13 Server13 Toy History12 Conn12 History13 Conn13
  Out13 Send13Proofs Nonce13 NonceState13.

(** The vocabulary, from Nonce13.v: [Sent13] is a record with its epoch, its number,
    the key protecting it, its content type, its content and its bytes.  [sent_ok] says
    the bytes are that record: plaintext, or sealed under the nonce made from the key's
    IV and the number.  [enc] concatenates the records of one datagram.  [kus] counts the
    KeyUpdate records (handshake records in application epochs). *)

(** No two records of one epoch share a number, the later one has the larger number,
    and an epoch has one key; so no two records have the same key and nonce.
    [all2 = false] leaves out the handshake epoch 2. *)
Definition numbers_distinct (all2 : bool) (zs : list Sent13) : Prop :=
  forall i j a b, (i < j)%nat -> nth_error zs i = Some a -> nth_error zs j = Some b ->
    z_epoch a = z_epoch b -> (z_epoch a = 2 -> all2 = true) ->
    z_key a = z_key b /\ z_seq a < z_seq b /\
    forall k, z_key a = Some k -> length (ek_iv k) = 12%nat -> bytes_ok (ek_iv k) ->
      nonce_xor (ek_iv k) (z_seq a) <> nonce_xor (ek_iv k) (z_seq b).

(** What an endpoint has sent and has still queued, as records. *)
Definition numbered_history (E : Env) (all2 : bool) (h : list (Call * Reply)) (s : End13) : Prop :=
  exists sent queued : list (list Sent13),
    datagrams (outputs h) = map enc sent /\ g_tx (end13_eng s) = map enc queued /\
    Forall (sent_ok E) (concat (sent ++ queued)) /\
    (kus (concat (sent ++ queued)) < 65533 -> numbers_distinct all2 (concat (sent ++ queued))).

Lemma FOP_nth {A} (R : A -> A -> Prop) l : ForallOrdPairs R l -> forall i j a b, (i < j)%nat ->
  nth_error l i = Some a -> nth_error l j = Some b -> R a b.
Proof.
  induction 1 as [|x l H1 H2 IH]; intros [|i] [|j] a b L Ha Hb; cbn in *; try discriminate; try lia.
  - injection Ha as <-. rewrite Forall_forall in H1. apply H1. eapply nth_error_In; exact Hb.
  - apply (IH i j); auto. lia.
Qed.
Lemma ledger_numbered E q lev h s : LI E q lev (outputs h) (end13_eng s) -> numbered_history E q h s.
Proof.
  intros (rss & L). exists (firstn (length (datagrams (outputs h))) rss), (skipn (length (datagrams (outputs h))) rss).
  destruct L as [L1 L2 L3 L4 L5 L6 L7 L8]. rewrite firstn_skipn.
  split; [|split; [|split]].
  - rewrite <- firstn_map, <- L1, firstn_app, Nat.sub_diag, firstn_all. cbn. symmetry. apply app_nil_r.
  - rewrite <- skipn_map, <- L1, skipn_app, Nat.sub_diag, skipn_all. reflexivity.
  - exact L2.
  - intros K i j a b Hij Ha Hb He H2. destruct (L8 K) as [N1 _].
    destruct (FOP_nth _ _ N1 i j a b Hij Ha Hb He H2) as [Q1 Q2]. split; [exact Q1|]. split; [exact Q2|].
    intros k Hk Hiv Hok Hn.
    rewrite Forall_forall in L2. destruct (L2 a (nth_error_In _ _ Ha)) as [Sa _]. destruct (L2 b (nth_error_In _ _ Hb)) as [Sb _].
    unfold MAX_SEQ in *. assert (z_seq a = z_seq b); [|lia].
    apply (nonce_xor_inj (ek_iv k)); auto; eapply N.lt_trans; [eassumption|reflexivity|eassumption|reflexivity].
Qed.

(** Over every history: of two records of one epoch the later has the larger number
    and the same key; numbers stay below 2^48 - 1; all datagrams consist of such
    records.  Retransmissions, acknowledgements, alerts and KeyUpdates included, while
    fewer than 65533 KeyUpdates were sent (then the 16-bit epoch wraps).
    Partial: for clients epoch 2 needs the next theorem; without its hypothesis
    the claim is false there ([C13_handshake_nonce13_refuted]). *)
Theorem C13_record_numbers13_partial : forall E cfg cert key h s,
  reach13 E cfg cert key h s ->
  numbered_history E (match s with XC _ => false | XS _ => true end) h s.
Proof.
  intros E cfg cert key h s (s0 & H0 & H).
  destruct (ledger13 E cfg cert key s0 h s false H0 H ltac:(discriminate)) as (q & lev & _ & Hq & L).
  destruct s; subst q; exact (ledger_numbered _ _ _ _ _ L).
Qed.
Print Assumptions C13_record_numbers13_partial.

(** The handshake epoch of a client, provided no call failed in the middle of
    processing a ServerHello: [half_done] is a client that installed handshake keys but
    still waits for a ServerHello. *)
Theorem C13_client_handshake_numbers13_partial : forall E cfg cert key s0 h s,
  start13 E cfg cert key s0 -> history13 E s0 h s ->
  (forall h1 h2 c, h = h1 ++ h2 -> history13 E s0 h1 (XC c) -> ~ half_done c) ->
  numbered_history E true h s.
Proof.
  intros E cfg cert key s0 h s H0 H HB.
  destruct (ledger13 E cfg cert key s0 h s true H0 H (fun _ => HB)) as (q & lev & Hq & _ & L).
  rewrite (Hq eq_refl) in L. exact (ledger_numbered _ _ _ _ _ L).
Qed.
Print Assumptions C13_client_handshake_numbers13_partial.

(** Both hypotheses hold of complete runs; the numbers of the client below: three
    plaintext records, then the protected ones. *)
Fixpoint never_half (E : Env) (cs : list Call) (s : End13) : bool :=
  (match s with XC c => negb (cstate13_eqb (xc_state c) CT_AwaitServerHello && is_some (g_hs_send (xc_eng c))) | XS _ => true end) &&
  match cs with [] => true | c :: cs => never_half E cs (snd (end13_call E c s)) end.
Lemma history_replay E s0 h s : history13 E s0 h s -> replay13 E (map fst h) s0 = (h, s).
Proof.
  induction 1 as [|h s c r s' H IH NP C]; [reflexivity|]. rewrite map_app. cbn [map fst].
  assert (G : forall cs c s0 h s r s', replay13 E cs s0 = (h, s) -> end13_call E c s = (r, s') ->
    replay13 E (cs ++ [c]) s0 = (h ++ [(c, r)], s')).
  { clear. induction cs as [|x cs IH]; intros c s0 h s r s' H C; cbn [replay13 app] in *.
    - injection H as <- <-. rewrite C. reflexivity.
    - destruct (end13_call E x s0) as [rx s1]. destruct (replay13 E cs s1) as [h1 s2] eqn:Hr. injection H as <- <-.
      rewrite (IH c s1 h1 s2 r s' Hr C). reflexivity. }
  apply (G _ _ _ _ _ _ _ IH C).
Qed.
Lemma never_half_ok E h : forall s0 h1 h2 c, never_half E (map fst h) s0 = true -> h = h1 ++ h2 ->
  history13 E s0 h1 (XC c) -> ~ half_done c.
Proof.
  intros s0 h1 h2 c Hn -> H. apply history_replay in H. rewrite map_app in Hn.
  assert (G : forall cs cs' s0 s, never_half E (cs ++ cs') s0 = true -> snd (replay13 E cs s0) = s ->
    match s with XC c => negb (cstate13_eqb (xc_state c) CT_AwaitServerHello && is_some (g_hs_send (xc_eng c))) | XS _ => true end = true).
  { clear. induction cs as [|x cs IH]; intros cs' s0 s Hn Hs.
    - cbn in Hs. subst s. cbn [app] in Hn. destruct cs'; cbn [never_half] in Hn; apply andb_prop in Hn; apply Hn.
    - cbn [app never_half] in Hn. apply andb_prop in Hn. destruct Hn as [_ Hn]. cbn [replay13] in Hs.
      destruct (end13_call E x s0) as [rx s1]. cbn [snd] in Hn. apply (IH cs' s1); [exact Hn|]. destruct (replay13 E cs s1). exact Hs. }
  specialize (G _ _ _ _ Hn (f_equal snd H)). cbn [snd] in G. intros [K1 K2]. rewrite K1 in G. cbn in G.
  destruct (g_hs_send (xc_eng c)); [discriminate|apply K2; reflexivity].
Qed.
Example C13_case :
  reach13 toy2 config_default [48; 9] (toy_key 9) (fst xs_run) (snd xs_run) /\
  history13 toy xc0 (fst xc_run) (snd xc_run) /\ never_half toy (map fst (fst xc_run)) xc0 = true /\
  (match snd xc_run with XC c => (xc_state c, g_seq0 (xc_eng c), g_hs_seq (xc_eng c)) | XS _ => (CT_Closed, 0, 0) end) =
    (CT_AwaitApplicationData, 2, 3).
Proof.
  split; [exact xs_run_reach|]. split; [exact xc_run_history|].
  split; vm_compute; reflexivity.
Qed.

(** When the numbers have run out sending fails and nothing is added to what will be
    sent. *)
Theorem C13_numbers_run_out13 : forall E s d r s',
  (match s with XC c => xc_state c = CT_AwaitApplicationData | XS c => xs_state c = ST_AwaitApplicationData end) ->
  g_prev (end13_eng s) = None -> g_epoch (end13_eng s) <> 2 -> MAX_SEQ <= g_app_seq (end13_eng s) ->
  end13_call E (Send d) s = (r, s') ->
  (forall o, r <> Ok o) /\ g_tx (end13_eng s') = g_tx (end13_eng s) /\ g_app_seq (end13_eng s') = g_app_seq (end13_eng s).
Proof.
  intros E s d r s' Hst Hp He Hm Hc.
  assert (G : forall e, g_prev e = None -> g_epoch e <> 2 -> MAX_SEQ <= g_app_seq e ->
    let '(r, e') := create_cipher13 E CT_APP (g_epoch e) false d e in (forall o, r <> Ok o) /\ e' = e).
  { clear. intros e Hp He Hm. pose proof (create_cipher_spec E CT_APP (g_epoch e) false d e) as W. unfold wp in W.
    destruct (create_cipher13 E CT_APP (g_epoch e) false d e) as [r e']. cbv zeta in W. cbn [fst snd] in W. unfold ctx13 in W. rewrite Hp in W.
    cbn [is_some andb] in W. replace (g_epoch e =? 2) with false in W by (symmetry; apply N.eqb_neq; exact He). cbn [keep13 ctx_seq] in W.
    destruct r as [u|x|n].
    - destruct W as (cs & i & k & body & rec & _ & _ & _ & _ & K & _). cbn [ctx_seq] in K. lia.
    - split; [discriminate|apply W].
    - split; [discriminate|]. destruct W; assumption. }
  destruct s as [c|c]; cbn [end13_call client13_call server13_call end13_eng] in *; specialize (G _ Hp He Hm).
  - unfold no_output, client13_send, bind, get, xeng, zoom in Hc. rewrite Hst in Hc. cbv beta iota in Hc.
    destruct (create_cipher13 _ _ _ _ _ _) as [r1 e1]. destruct G as [G1 ->].
    destruct r1 as [u|x|n]; [elim (G1 u eq_refl)|..]; injection Hc as <- <-; (split; [discriminate|split; reflexivity]).
  - unfold no_output, server13_send, bind, get, yeng, zoom in Hc. rewrite Hst in Hc. cbv beta iota in Hc.
    destruct (create_cipher13 _ _ _ _ _ _) as [r1 e1]. destruct G as [G1 ->].
    destruct r1 as [u|x|n]; [elim (G1 u eq_refl)|..]; injection Hc as <- <-; (split; [discriminate|split; reflexivity]).
Qed.
Print Assumptions C13_numbers_run_out13.

(** The connected client above with its last number used. *)
Definition worn_out : End13 :=
  match snd xc_run with XC c => XC (set_xc_eng (set_g_app_seq MAX_SEQ (xc_eng c)) c) | s => s end.
Example C13_run_out_case :
  (match worn_out with XC c => (xc_state c, g_prev (xc_eng c), g_epoch (xc_eng c), g_app_seq (xc_eng c)) | _ => (CT_Closed, None, 0, 0) end) =
    (CT_AwaitApplicationData, None, 3, MAX_SEQ) /\
  fst (end13_call toy (Send [1]) worn_out) = Err ECrypto.
Proof. split; vm_compute; reflexivity. Qed.

(** ** Nonce reuse *)

(** A network attacker makes a client with the default configuration seal two
    different contents under the same key and nonce.
    - Before the ServerHello arrives the attacker delivers three datagrams, each made of
      one junk ciphertext record and fifteen plaintext handshake records, and one
      genuine protected record of the server's flight.
    - The ServerHello installs the handshake keys and then fails with
      [ReceiveQueueFull], because the queued records are queued again one by one.
    - The client, still waiting for a ServerHello, acknowledges the genuine record under
      its handshake key with number 0.
    - The attacker forges a HelloRetryRequest; the client resets the number to 0 and keeps
      the key.
    - The next acknowledgement is sealed with number 0 again. *)
Definition cfg_plain : Config := mkConfig 1150 30 10 false false 1000000000 4 40000000000 (2 ^ 23) None None None None.
Definition nr_server : End13 := new_server13 toy2 cfg_plain [48; 9] (toy_key 9) 0.
Fixpoint split13 (fuel : nat) (p : bytes) : list bytes :=
  match fuel with
  | O => []
  | S f => match rec_bound13 p with BRec e => firstn e p :: split13 f (skipn e p) | _ => [] end
  end.
Definition nr_flight : list bytes := Eval vm_compute in
  flat_map (split13 20) (fst (drain_log13 toy2 200 (calls_log13 toy2
    (Tick 5 :: map Packet (fst (drain_log13 toy 200 (call_log13 toy (Tick 5) ([], xc0))))) ([], nr_server)))).
Definition junk_record (n : N) : bytes := [46] ++ be 2 n ++ be 2 20 ++ repeat 0 20.
Definition forged_hs (n : N) : bytes := s_plain13 CT_HS 0 n (s_hs_header MT_Certificate 1 (100 + n) 0 1 ++ [0]).
Definition stuffing (i : N) : bytes :=
  junk_record (60000 + i) ++ flat_map (fun j => forged_hs (i * 15 + N.of_nat j)) (seq 1 15).
Definition forged_hrr : bytes :=
  let m := s_sh13 (mkSH12 V_DTLS12 HRR_RANDOM [] 4865 0 (Some (hrr_exts None [1; 2; 3]))) in
  s_plain13 CT_HS 0 77 (s_hs_header MT_ServerHello (len m) 0 0 (len m) ++ m).
Definition nr_calls : list Call := Eval vm_compute in
  [Tick 5; Poll 3000; Poll 3000; Packet (stuffing 0); Packet (stuffing 1); Packet (stuffing 2);
   Packet (nth 3 nr_flight []); Packet (nth 0 nr_flight []); Poll 3000; Tick 6; Poll 3000; Poll 3000;
   Packet forged_hrr; Poll 3000; Poll 3000; Packet (nth 4 nr_flight []); Poll 3000; Tick 7; Poll 3000].
Definition nr_run : Log * End13 := replay13 toy nr_calls xc0.
Definition nr_key : option Keys13 := g_hs_send (end13_eng (snd nr_run)).
Definition key_or (o : option Keys13) : Keys13 := match o with Some k => k | None => mkKeys13 0 [] [] [] [] end.
(** The two acknowledgements, their contents read off the toy ciphertexts. *)
Definition nr_acks : list bytes := Eval vm_compute in
  filter (fun d => beqb (firstn 1 d) [46]) (datagrams (outputs (fst nr_run))).
Definition nr_body (d : bytes) : bytes := skipn 5 d.
Definition nr_text (d : bytes) : bytes := firstn (length d - 5 - 17) (nr_body d).

Theorem C13_handshake_nonce13_refuted : exists h s k d1 d2 f1 f2 b1 b2 i,
  reach13 toy config_default [48; 7] (toy_key 7) h s /\
  Forall (fun x => ~ panicked (snd x)) h /\
  (exists h1 h2 h3, datagrams (outputs h) = h1 ++ d1 :: h2 ++ d2 :: h3) /\
  find13 toy S13_AES128 = Some i /\
  sealed13 toy i k 2 0 CT_ACK f1 d1 b1 /\ sealed13 toy i k 2 0 CT_ACK f2 d2 b2 /\ f1 <> f2.
Proof.
  exists (fst nr_run), (snd nr_run), (key_or nr_key), (nth 0 nr_acks []), (nth 1 nr_acks []),
    (nr_text (nth 0 nr_acks [])), (nr_text (nth 1 nr_acks [])), (nr_body (nth 0 nr_acks [])), (nr_body (nth 1 nr_acks [])),
    (mkS13 S13_AES128 16 12 16).
  split; [exists xc0; split; [apply new_client13_start|apply replay13_history; vm_compute; reflexivity]|].
  split; [apply quiet_forall; vm_compute; reflexivity|].
  split.
  { exists (firstn 1 (datagrams (outputs (fst nr_run)))), (firstn 1 (skipn 2 (datagrams (outputs (fst nr_run))))), (skipn 4 (datagrams (outputs (fst nr_run)))).
    vm_compute. reflexivity. }
  split; [vm_compute; reflexivity|].
  split; [split; vm_compute; reflexivity|]. split; [split; vm_compute; reflexivity|].
  vm_compute. discriminate.
Qed.
Print Assumptions C13_handshake_nonce13_refuted.
