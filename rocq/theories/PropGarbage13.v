(** C04 and C32 for DTLS 1.3: a datagram none of whose records authenticates does nothing
    to an established connection. *)
From Verif Require Import Prelude PreludeFacts Types Codec Codec12 Codec13 Record12 Record13 Monad MonadFacts Timer Env Config Aead Engine12 Client12
  Engine13 Client13 Server13 Context12 Toy History12 History12Facts Conn12 History13 Conn13 Frame13 Lift13 Index13 Lift12 Trace13 Trace13Proofs Out13 Rx13Proofs PropRx13
  Open13 Poll13Proofs Fin13 Est13 PropTimer13 PropSeal13 PropHs13 Alert13 PropAlert13 Close13 Garbage13.

(** [raw] is forged: whatever receive key the endpoint holds, whatever number and
    whatever header are taken, the rest of the record does not open. *)
Definition forged13 (E : Env) (s : End13) (raw : bytes) : Prop :=
  forall ep n hdr k, recv_keys13 (end13_eng s) ep = Some k -> (length hdr <= length raw)%nat ->
    e_open E (ek_suite k) (ek_key k) (nonce_xor (ek_iv k) n) hdr (skipn (length hdr) raw) = None.

Lemma connected_suite E cfg cert key h s : reach13 E cfg cert key h s -> In OConnected (outputs h) -> suite_known E (end13_eng s).
Proof.
  intros HR HC. assert (G : exists cs, g_suite (end13_eng s) = Some cs /\ In cs (cfg_suites13 E cfg)).
  { destruct s as [c|c].
    - destruct HR as (s0 & Hs & Hh). destruct (C39_client_parameters13 _ _ _ _ _ _ _ Hs Hh HC) as (cs & b & raw & hello & es & kx & peer & sh & P1 & _ & _ & _ & P2 & _).
      exists cs. split; [exact P1|exact P2].
    - destruct (C39_server_parameters13 _ _ _ _ _ _ HR HC) as (cs & b & raw & auto & hello & vs & gr & shs & peer & P1 & _ & _ & _ & _ & _ & P2 & _).
      exists cs. split; [exact P1|exact P2]. }
  destruct G as (cs & G1 & G2). unfold cfg_suites13 in G2. apply filter_In in G2. destruct G2 as [G2 _]. apply in_map_iff in G2.
  destruct G2 as (i & <- & Hi). exists (s13_id i). unfold find13.
  destruct (find (fun j => s13_id j =? s13_id i) (e_suites13 E)) as [j|] eqn:Hf; [exists j; auto|].
  apply find_none with (x := i) in Hf; [|exact Hi]. rewrite N.eqb_refl in Hf. discriminate.
Qed.
Lemma forged_not_authentic E s raw : forged13 E s raw -> ~ authentic13 E (end13_eng s) raw.
Proof. intros F (ep & n & hdr & k & pt & H1 & H2 & H3). rewrite (F ep n hdr k H1 H2) in H3. discriminate. Qed.

(** C32: on an established connection, a datagram made of forged records, or of records
    in the clear other than handshake records, or of anything that is no record at all,
    acts exactly like the empty datagram, or is answered without error and leaves the
    endpoint exactly as it was.  Missing: handshake records in the clear, for which it
    is false ([C32_forged_handshake13_refuted]). *)
Theorem C32_garbage_ignored13_partial : forall E cfg cert key h s p,
  reach13 E cfg cert key h s -> In OConnected (outputs h) ->
  (forall raw, In raw (records13 p) -> forged13 E s raw) ->
  (forall raw, In raw (records13 p) -> hd 0 raw <> CT_HS) ->
  end13_call E (Packet p) s = end13_call E (Packet []) s \/ end13_call E (Packet p) s = (Ok None, s).
Proof.
  intros E cfg cert key h s p HR HC NA NH. destruct (connected_up13 E cfg cert key h s HR (or_introl HC)) as (F & P & _).
  destruct (parse_garbage13 E (end13_eng s) p P (connected_suite _ _ _ _ _ _ HR HC)) as [K|K].
  - intros raw Hr. apply forged_not_authentic, NA, Hr.
  - exact NH.
  - left. apply packet_ignored; assumption.
  - right. apply packet_transient; assumption.
Qed.
Print Assumptions C32_garbage_ignored13_partial.

(** C04: reading such a datagram leaves the whole receive state (replay windows, keys,
    queues, timers) as it was, and panics or fails in no other way than by asking for
    the datagram to be dropped.  Missing: as above, see
    [C04_forged_key_update13_refuted]. *)
Theorem C04_forgery_changes_nothing13_partial : forall E cfg cert key h s p,
  reach13 E cfg cert key h s -> In OConnected (outputs h) ->
  (forall raw, In raw (records13 p) -> forged13 E s raw) ->
  (forall raw, In raw (records13 p) -> hd 0 raw <> CT_HS) ->
  exists o, eng13_parse_packet E p (end13_eng s) = (o, end13_eng s) /\ (o = Ok tt \/ o = Err ETransient).
Proof.
  intros E cfg cert key h s p HR HC NA NH. destruct (connected_up13 E cfg cert key h s HR (or_introl HC)) as (_ & P & _).
  destruct (parse_garbage13 E (end13_eng s) p P (connected_suite _ _ _ _ _ _ HR HC)) as [K|K]; eauto.
  intros raw Hr. apply forged_not_authentic, NA, Hr.
Qed.
Print Assumptions C04_forgery_changes_nothing13_partial.

(** C04: the same, for what a later datagram meets: replay windows, keys, queues, timers
    and everything else the endpoint holds are those the empty datagram leaves, so that
    the genuine record with the same number is still accepted. *)
Theorem C04_forgery_burns_nothing13_partial : forall E cfg cert key h s p q,
  reach13 E cfg cert key h s -> In OConnected (outputs h) ->
  (forall raw, In raw (records13 p) -> forged13 E s raw) ->
  (forall raw, In raw (records13 p) -> hd 0 raw <> CT_HS) ->
  let after := snd (end13_call E (Packet p) s) in
  end13_call E q after = end13_call E q s \/ end13_call E q after = end13_call E q (snd (end13_call E (Packet []) s)).
Proof.
  intros E cfg cert key h s p q HR HC NA NH after. unfold after.
  destruct (C32_garbage_ignored13_partial E cfg cert key h s p HR HC NA NH) as [-> | ->]; [right|left]; reflexivity.
Qed.
Print Assumptions C04_forgery_burns_nothing13_partial.

(** The hypotheses can be met: under the toy cryptography nothing that ends in zeros
    opens, so a record of the connected client with its tag zeroed is forged; the
    server is left as it was, and then takes the genuine record. *)
Lemma toy_two_zeros n x l : toy_expand (S (S n)) x <> 0 :: 0 :: l.
Proof.
  cbn [toy_expand]. rewrite !N.div2_div. change 255 with (N.ones 8). change 16777215 with (N.ones 24). rewrite !N.land_ones.
  change (2 ^ 8) with 256. change (2 ^ 24) with 16777216. intros H. injection H as H1 H2 _.
  rewrite !N.div_div in * by discriminate. cbn [N.mul Pos.mul] in *. Z.div_mod_to_equations. lia.
Qed.
Lemma skipn_twice {A} a b (l : list A) : skipn a (skipn b l) = skipn (a + b) l.
Proof.
  revert l. induction b as [|b IH]; intros l; [rewrite Nat.add_0_r; reflexivity|]. rewrite Nat.add_succ_r.
  destruct l as [|x l]; [rewrite !skipn_nil; reflexivity|]. cbn [skipn]. apply IH.
Qed.
Lemma toy_zero_forged s pre : forged13 toy2 s (pre ++ repeat 0 16).
Proof.
  intros ep n hdr k _ L. change (toy_open (ek_suite k) (ek_key k) (nonce_xor (ek_iv k) n) hdr (skipn (length hdr) (pre ++ repeat 0 16)) = None).
  unfold toy_open. destruct (Nat.ltb _ _) eqn:Hl; [reflexivity|]. apply Nat.ltb_ge in Hl.
  rewrite skipn_length, app_length, repeat_length in *. rewrite skipn_twice.
  replace (_ + length hdr)%nat with (length pre + (16 - toy_taglen (ek_suite k)))%nat by (unfold toy_taglen in *; destruct (_ =? _); lia).
  rewrite skipn_app, skipn_all2 by lia. replace (length pre + _ - length pre)%nat with (16 - toy_taglen (ek_suite k))%nat by lia.
  unfold toy_tag. match goal with |- context [toy_expand _ ?x] => generalize x end. intros x. cbn [app].
  destruct (beqb _ _) eqn:Hb; [|reflexivity]. apply beqb_eq in Hb. exfalso. unfold toy_taglen in Hb.
  destruct (ek_suite k =? CS_PSK); cbn [Nat.sub skipn repeat] in Hb; symmetry in Hb; revert Hb; apply toy_two_zeros.
Qed.
Lemma existsb_connected os : existsb (fun o => match o with OConnected => true | _ => false end) os = true -> In OConnected os.
Proof. intros H. apply existsb_exists in H. destruct H as (o & H1 & H2). destruct o; try discriminate. exact H1. Qed.
Definition ex_good : bytes := ex_raw CT_APP [72; 105].
Definition ex_bad : bytes := firstn (length ex_good - 16) ex_good ++ repeat 0 16.
Example C32_case13 :
  reach13 toy2 config_default [48; 9] (toy_key 9) (fst xs_run) (snd xs_run) /\ In OConnected (outputs (fst xs_run)) /\
  records13 ex_bad = [ex_bad] /\ (forall raw, In raw (records13 ex_bad) -> forged13 toy2 (snd xs_run) raw) /\
  (forall raw, In raw (records13 ex_bad) -> hd 0 raw <> CT_HS) /\
  map snd (fst (replay13 toy2 [Packet ex_bad; Packet ex_good; Poll 2000] (snd xs_run))) = [Ok None; Ok None; Ok (Some (OAppData [72; 105]))].
Proof.
  assert (R : records13 ex_bad = [ex_bad]) by (vm_compute; reflexivity).
  split; [exact xs_run_reach|]. split; [apply existsb_connected; vm_compute; reflexivity|]. split; [exact R|]. rewrite R.
  split; [intros raw [<-|[]]; apply toy_zero_forged|]. split; [intros raw [<-|[]]; vm_compute; discriminate|].
  vm_compute; reflexivity.
Qed.
