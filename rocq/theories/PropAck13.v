(** C28: what an acknowledgement does; C31: the content of an opened record. *)
From Verif Require Import Prelude PreludeFacts Types Codec Codec12 Codec13 Record12 Record13 Monad MonadFacts Timer
  Env Config Aead Engine12 Client12 Engine13 Client13 Server13 Toy History12 Conn12 History13 Conn13 Lift13 PropRx13 Open13 KeyUpd13 PropCodec13.

(** The record was acknowledged before or is listed. *)
Definition listed13 (es : list (N * N)) (x : Entry13) : Prop :=
  en13_acked x = true \/ In (en13_epoch x, en13_seq x) es.
(** The same record with the same number, marked exactly when it is listed or was marked. *)
Definition marks13 (es : list (N * N)) (x y : Entry13) : Prop :=
  en13_ctype y = en13_ctype x /\ en13_epoch y = en13_epoch x /\ en13_seq y = en13_seq x /\ en13_frag y = en13_frag x /\
  (en13_acked y = true <-> listed13 es x).
(** The records of the flight that are acknowledged explicitly: those of the handshake
    epoch; the plaintext ones before them reach the peer, or it could not send an ACK. *)
Definition handshake_done (es : list (N * N)) (l : list Entry13) : Prop :=
  Exists (fun x => en13_epoch x = 2) l /\ Forall (fun x => en13_epoch x = 2 -> listed13 es x) l.
Definition update_done (es : list (N * N)) (l : list Entry13) : Prop :=
  l <> [] /\ Forall (listed13 es) l.

Lemma mark_marks es x : marks13 es x (mark_acked es x).
Proof.
  unfold marks13, mark_acked, listed13. destruct (existsb _ es) eqn:H.
  - repeat split. intros _. right. apply existsb_exists in H. destruct H as ([a b] & Hi & Hq). cbn [fst snd] in Hq.
    apply andb_true_iff in Hq. destruct Hq as [Q1 Q2]. apply N.eqb_eq in Q1, Q2. rewrite Q1, Q2. exact Hi.
  - repeat split; [auto|]. intros [K|K]; [exact K|]. exfalso.
    assert (X : existsb (fun a => (en13_epoch x =? fst a) && (en13_seq x =? snd a)) es = true).
    { apply existsb_exists. exists (en13_epoch x, en13_seq x). cbn [fst snd]. rewrite !N.eqb_refl. auto. }
    congruence.
Qed.
Lemma marks_all es l : Forall2 (marks13 es) l (map (mark_acked es) l).
Proof. induction l; constructor; [apply mark_marks|assumption]. Qed.
Lemma marked_ep2 es l : let m := filter (fun e => en13_epoch e =? 2) (map (mark_acked es) l) in
  negb (is_nil m) && forallb en13_acked m = true <-> handshake_done es l.
Proof.
  cbv zeta. unfold handshake_done. induction l as [|x l IH]; cbn [map filter].
  { cbn. split; [discriminate|]. intros [H _]. inversion H. }
  destruct (mark_marks es x) as (_ & H2 & _ & _ & H5). rewrite H2.
  assert (R : forall m : list Entry13, forallb en13_acked m = true <-> Forall (fun y => en13_acked y = true) m).
  { intro m. rewrite forallb_forall, Forall_forall. reflexivity. }
  destruct (N.eqb_spec (en13_epoch x) 2) as [He|He].
  - cbn [is_nil negb andb]. rewrite R. split.
    + intros F. inversion F as [|? ? F1 F2]; subst. split; [left; exact He|]. constructor; [intros _; apply H5, F1|].
      apply R in F2. destruct (is_nil _) eqn:Hn.
      * clear - Hn. induction l as [|y l IHl]; constructor; cbn [map filter] in Hn; destruct (mark_marks es y) as (_ & K & _); rewrite K in Hn;
          destruct (N.eqb_spec (en13_epoch y) 2); try discriminate; [contradiction|auto].
      * destruct IH as [IH _]. rewrite F2 in IH. destruct (IH eq_refl) as [_ IH']. exact IH'.
    + intros [_ F]. inversion F as [|? ? F1 F2]; subst. constructor; [apply H5, F1, He|].
      clear - F2. induction F2 as [|y l Y F2 IH]; cbn [map filter]; [constructor|].
      destruct (mark_marks es y) as (_ & K & _ & _ & K5). rewrite K. destruct (N.eqb_spec (en13_epoch y) 2) as [Q|Q]; [|exact IH].
      constructor; [apply K5, Y, Q|exact IH].
  - rewrite IH. split; intros [P Q].
    + split; [right; exact P|constructor; [contradiction|exact Q]].
    + inversion Q; subst. split; [|assumption]. inversion P; subst; [contradiction|assumption].
Qed.
Lemma marked_all es l : negb (is_nil (map (mark_acked es) l)) && forallb en13_acked (map (mark_acked es) l) = true <-> update_done es l.
Proof.
  unfold update_done. destruct l as [|x l]; [cbn; split; [discriminate|intros [H _]; contradiction]|].
  cbn [map is_nil negb andb]. change (mark_acked es x :: map (mark_acked es) l) with (map (mark_acked es) (x :: l)).
  generalize (x :: l) as k, (@nil_cons _ x l). intros k Hk. split.
  - intros F. split; [congruence|]. rewrite forallb_forall in F. apply Forall_forall. intros y Hy.
    apply (mark_marks es y). apply F, in_map, Hy.
  - intros [_ F]. rewrite forallb_forall. intros z Hz. apply in_map_iff in Hz. destruct Hz as (y & <- & Hy).
    rewrite Forall_forall in F. apply (mark_marks es y), F, Hy.
Qed.

(** Bytes that are not an acknowledgement do nothing.  An acknowledgement of the
    records [es] never panics nor fails while no key update is in flight; it marks exactly the
    saved records it lists; and the flight ends (nothing is saved any more and the
    retransmission timer is off) exactly if now all its records are acknowledged:
    those of the handshake epoch for a handshake flight, all of them for a key update. *)
Theorem C28_ack_marks13 : forall E d e r e', process_ack E d e = (r, e') ->
  match p_ack d with
  | None => r = Ok tt /\ e' = e
  | Some es =>
    (handshake_done es (g_saved e) /\ r = Ok tt /\ g_saved e' = [] /\ g_flight e' = Disabled /\
       g_app_send e' = g_app_send e /\ g_epoch e' = g_epoch e) \/
    (~ handshake_done es (g_saved e) /\ ~ (g_inflight e = true /\ update_done es (g_saved e)) /\ r = Ok tt /\
       Forall2 (marks13 es) (g_saved e) (g_saved e') /\ g_flight e' = g_flight e /\
       g_app_send e' = g_app_send e /\ g_epoch e' = g_epoch e) \/
    (~ handshake_done es (g_saved e) /\ g_inflight e = true /\ update_done es (g_saved e) /\
     match r with
     | Ok _ => g_saved e' = [] /\ g_flight e' = Disabled /\ g_inflight e' = false
     | _ => Forall2 (marks13 es) (g_saved e) (g_saved e') /\ g_app_send e' = None
     end)
  end.
Proof.
  intros E d e r e' H. unfold process_ack in H. destruct (p_ack d) as [es|]; [|injection H as <- <-; auto].
  unfold bind at 1, modify in H. set (e1 := set_g_saved (map (mark_acked es) (g_saved e)) e) in H.
  unfold bind at 1, get in H. cbv beta iota in H.
  pose proof (marked_ep2 es (g_saved e)) as M2. cbv zeta in M2. change (map (mark_acked es) (g_saved e)) with (g_saved e1) in M2.
  destruct (negb (is_nil (filter (fun e => en13_epoch e =? 2) (g_saved e1))) &&
            forallb en13_acked (filter (fun e => en13_epoch e =? 2) (g_saved e1))) eqn:B2.
  - left. unfold when, bind, modify, get in H. cbv beta iota in H. cbn [g_inflight g_saved set_g_saved set_g_flight e1 is_nil] in H.
    cbn [negb] in H. rewrite andb_false_r in H. cbn [andb] in H. injection H as <- <-.
    split; [apply M2; reflexivity|]. repeat split.
  - right. assert (ND : ~ handshake_done es (g_saved e)) by (intros X; apply M2 in X; discriminate).
    unfold when at 1, bind at 1, ret, bind at 1, get in H. cbv beta iota in H.
    pose proof (marked_all es (g_saved e)) as MA. change (map (mark_acked es) (g_saved e)) with (g_saved e1) in MA.
    change (g_inflight e1) with (g_inflight e) in H. rewrite <- andb_assoc in H.
    destruct (g_inflight e) eqn:Hi; cbn [andb] in H.
    2: { left. injection H as <- <-. split; [exact ND|]. split; [intros [X _]; discriminate|]. split; [reflexivity|].
         split; [apply marks_all|repeat split]. }
    destruct (negb (is_nil (g_saved e1)) && forallb en13_acked (g_saved e1)) eqn:BA.
    2: { left. injection H as <- <-. split; [exact ND|]. split; [intros [_ X]; apply MA in X; discriminate|]. split; [reflexivity|].
         split; [apply marks_all|repeat split]. }
    right. split; [exact ND|]. split; [reflexivity|]. split; [apply MA; reflexivity|].
    unfold when, bind in H. pose proof (update_send_spec E e1) as W. unfold wp in W.
    destruct (update_send_keys E e1) as [[u|x|n] e2]; cbn [fst snd] in W; unfold modify in H; injection H as <- <-; [repeat split|..];
      destruct W as (W1 & _ & _ & ->); (split; [apply marks_all|exact W1]).
Qed.
Print Assumptions C28_ack_marks13.

(** A server flight of three records: the first acknowledgement marks one, the
    second ends the flight although the plaintext record was never listed. *)
Definition ack_case : Eng13 :=
  set_g_saved [mkEntry13 CT_HS 0 0 [1] false; mkEntry13 CT_HS 2 0 [2] false; mkEntry13 CT_HS 2 1 [3] false]
    (eng13_new toy config_default [48; 7] (toy_key 7) false).
Example C28_case13 :
  let a := process_ack toy (s_ack [(2, 1); (2, 7)]) ack_case in
  map en13_acked (g_saved (snd a)) = [false; false; true] /\
  g_saved (snd (process_ack toy (s_ack [(2, 0)]) (snd a))) = [] /\
  map en13_acked (g_saved (snd (process_ack toy [1; 2; 3] ack_case))) = [false; false; false].
Proof. vm_compute. repeat split. Qed.

(** ** C31: the content of an opened record *)

(** What the endpoint keeps of an encrypted record is the content its peer's padding and
    type byte were appended to: the plaintext of the opened record is the content, the
    non-zero type, and zeros.  [protected13]: the record is encrypted and the endpoint
    expects encryption. *)
Theorem C31_opened13 : forall E raw e r e', protected13 raw e -> rec_parse13 E raw e = (Ok (Some r), e') ->
  r_ctype r <> 0 /\
  exists hdr k padding, recv_keys13 e (r_epoch r) = Some k /\
    e_open E (ek_suite k) (ek_key k) (nonce_xor (ek_iv k) (r_seq r)) hdr (skipn (length hdr) raw) =
      Some (r_frag r ++ [r_ctype r] ++ repeat 0 padding).
Proof.
  intros E raw e r e' HP H. destruct (rec_parse_opens E raw e r e' HP H) as (hdr & k & pt & K1 & _ & K2 & K3).
  destruct (C31_sound13 _ _ _ K3) as (K4 & padding & ->). split; [exact K4|]. exists hdr, k, padding. auto.
Qed.
Print Assumptions C31_opened13.

(** When all that the cipher opens is zeros, every encrypted record is dropped, and none is an
    error.  (The cipher suite is set when encryption is expected.) *)
Theorem C31_zeros_dropped13 : forall E raw e r e', protected13 raw e ->
  (forall cs k n a c pt, e_open E cs k n a c = Some pt -> exists m, pt = repeat 0 m) ->
  rec_parse13 E raw e = (r, e') -> r = Ok None \/ (exists n, r = Panic n /\ (g_suite e = None \/ exists cs, g_suite e = Some cs /\ find13 E cs = None)).
Proof.
  intros E raw e r e' [Hc Hp] HZ H.
  assert (SP : wp (suite_provider13 E) (fun o e1 => e1 = e /\ match o with Ok _ => True | Err _ => False
    | Panic n => g_suite e = None \/ exists cs, g_suite e = Some cs /\ find13 E cs = None end) e).
  { unfold suite_provider13. apply wp_bind, wp_get. destruct (g_suite e) as [cs|] eqn:Hs; [|apply wp_panic; auto].
    destruct (find13 E cs) eqn:Hf; [apply wp_ret; auto|apply wp_panic; split; [reflexivity|right; exists cs; auto]]. }
  set (bad := g_suite e = None \/ exists cs, g_suite e = Some cs /\ find13 E cs = None) in *.
  assert (W : wp (rec_parse13 E raw) (fun o _ => o = Ok None \/ exists n, o = Panic n /\ bad) e).
  { unfold rec_parse13. rewrite Hc. apply wp_bind, wp_get. rewrite Hp. cbn [andb negb orb]. apply wp_bind.
    eapply wp_mono with (P := fun (o : res bytes) e1 => e1 = e /\ match o with Ok _ => True | Err _ => False | Panic n => bad end).
    { unfold unmask13. apply wp_bind, wp_get. destruct (Nat.leb _ _); [|apply wp_ret; auto].
      destruct (recv_keys13 _ _); [|apply wp_ret; auto]. apply wp_bind. eapply wp_mono; [exact SP|].
      intros [i|x|n] e1 [-> K]; [apply wp_ret; auto|contradiction|auto]. }
    intros [buf|x|n] e1 [-> K]; [|contradiction|right; exists n; auto].
    destruct (p_parsed13 buf) as [[r0 he]|]; [|apply wp_ret; auto].
    destruct (negb _); [apply wp_ret; auto|]. apply wp_bind. eapply wp_mono; [exact SP|].
    intros [i|x|n] e1 [-> K1]; [|contradiction|right; exists n; auto].
    destruct (Nat.ltb _ _); [apply wp_ret; auto|]. destruct (recv_keys13 _ _); [|apply wp_ret; auto].
    destruct (e_open _ _ _ _ _ _) as [pt|] eqn:HO; [|apply wp_ret; auto]. apply wp_bind, wp_modify.
    destruct (HZ _ _ _ _ _ _ HO) as (m & ->). rewrite C31_all_zero13. apply wp_ret. auto. }
  unfold wp in W. rewrite H in W. exact W.
Qed.
Print Assumptions C31_zeros_dropped13.

(** The client of the toy run opens an encrypted record of its server; with a cipher that opens
    everything to zeros the same record is dropped. *)
Definition opened_runs : list (bytes * Eng13) :=
  flat_map (fun n => match nth_error xc_calls n with
    | Some (Packet p) => [(p, end13_eng (snd (replay13 toy (firstn n xc_calls) xc0)))] | _ => [] end) (seq 0 (length xc_calls)).
Definition zero_env : Env :=
  mkEnv (e_suites12 toy) (e_suites13 toy) (e_groups toy) (e_mkcipher toy) (e_seal toy) (fun _ _ _ _ c => Some (repeat 0 (length c)))
    (e_mask toy) (e_hash toy) (e_hmac toy) (e_kx_start toy) (e_kx_complete toy) (e_sign toy) (e_verify toy) (e_cert_group toy)
    (e_rand toy) (e_jitter toy) (e_threshold toy) (e_bsearch toy).
Definition opens_some (x : bytes * Eng13) : bool :=
  is_ct_header (hd 0 (fst x)) && g_penc (snd x) &&
  match fst (rec_parse13 toy (fst x) (snd x)) with Ok (Some r) => negb (is_nil (r_frag r)) | _ => false end &&
  match fst (rec_parse13 zero_env (fst x) (snd x)) with Ok None => true | _ => false end.
Example C31_opened_case13 : existsb opens_some opened_runs = true /\
  (forall cs k n a c pt, e_open zero_env cs k n a c = Some pt -> exists m, pt = repeat 0 m).
Proof.
  split; [vm_compute; reflexivity|]. intros cs k n a c pt H. injection H as <-. exists (length c). reflexivity.
Qed.
