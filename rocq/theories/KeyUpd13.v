(** Proofs about key updates in DTLS 1.3. *)
From Coq Require Import String.
From Verif Require Import Prelude PreludeFacts Types Codec Codec12 Codec13 Record12 Record13 Monad MonadFacts Timer Env Config Aead Prf Engine12 Client12
  Engine13 Client13 Server13 History12 History12Facts History13 Frame13 Lift13 Index13 Send13Proofs Trace13 Trace13Proofs Out13 Open13 Fin13.
Close Scope string_scope.

(** The datagram holds an acknowledgement record, opened under one of the endpoint's
    receive keys, that lists the record number. *)
Definition acked_in (E : Env) (e : Eng13) (p : bytes) (ep n : N) : Prop :=
  exists rep rn content es, opened13 E e p CT_ACK rep rn content /\ p_ack content = Some es /\ In (ep, n) es.

(** The second set of keys is that of the next application traffic secret. *)
Definition next_keys (E : Env) (cur ks : Keys13) : Prop :=
  exists h, hkdf_expand_label13 E h (ek_secret cur) (str "traffic upd"%string) [] (hash_len h) = Some (ek_secret ks).

(** ** Acknowledgements *)

Definition entry_id (x : Entry13) : N * N * N * bytes := (en13_ctype x, en13_epoch x, en13_seq x, en13_frag x).
Definition marked (A : N -> N -> Prop) (x y : Entry13) : Prop :=
  entry_id y = entry_id x /\ (en13_acked y = true -> en13_acked x = true \/ A (en13_epoch x) (en13_seq x)).
Definition kept (A : N -> N -> Prop) (a b : list Entry13) : Prop := b = [] \/ Forall2 (marked A) a b.
Definition all_acked (A : N -> N -> Prop) (l : list Entry13) : Prop :=
  l <> [] /\ Forall (fun x => en13_acked x = true \/ A (en13_epoch x) (en13_seq x)) l.

Lemma Forall2_comp {A} (P Q R : A -> A -> Prop) (H : forall x y z, P x y -> Q y z -> R x z) a b c :
  Forall2 P a b -> Forall2 Q b c -> Forall2 R a c.
Proof.
  intros F. revert c. induction F as [|x y a b K F IH]; intros c G; inversion G; subst; constructor; eauto.
Qed.
Lemma marked_refl A x : marked A x x.
Proof. split; auto. Qed.
Lemma kept_refl A l : kept A l l.
Proof. right. induction l; constructor; [apply marked_refl|assumption]. Qed.
Lemma entry_id_eq x y : entry_id y = entry_id x -> en13_epoch y = en13_epoch x /\ en13_seq y = en13_seq x.
Proof. unfold entry_id. intros H. injection H. auto. Qed.
Lemma kept_trans A a b c : kept A a b -> kept A b c -> kept A a c.
Proof.
  intros [->|H] [->|K]; try (left; reflexivity).
  - inversion K. left; reflexivity.
  - right. eapply Forall2_comp; [|exact H|exact K]. intros x y z [M1 M2] [K1 K2]. split; [congruence|].
    intros Hz. destruct (entry_id_eq _ _ M1) as [<- <-]. destruct (K2 Hz) as [Y|Y]; [|right; exact Y].
    destruct (M2 Y) as [X|X]; [left; exact X|right]. destruct (entry_id_eq _ _ M1) as [-> ->]. exact X.
Qed.
Lemma kept_acked A a b : kept A a b -> all_acked A b -> all_acked A a.
Proof.
  intros [->|H] [N K]; [contradiction|]. split; [intros ->; inversion H; subst; contradiction|].
  clear N. induction H as [|x y a b [M1 M2] F IH]; constructor; inversion K; subst; [|apply IH; assumption].
  destruct (entry_id_eq _ _ M1) as [<- <-]. match goal with H : en13_acked y = true \/ _ |- _ => destruct H as [Y|Y] end; [|right; exact Y].
  destruct (M2 Y) as [X|X]; [left; exact X|right]. destruct (entry_id_eq _ _ M1) as [-> ->]. exact X.
Qed.

(** What acknowledgements do to the engine: nothing but mark saved records; or
    switch to the next keys, when a key update is in flight and every saved record has
    been acknowledged. *)
Definition ack_step (E : Env) (A : N -> N -> Prop) (a b : Eng13) : Prop :=
  (g_app_send b = g_app_send a /\ g_epoch b = g_epoch a /\ g_inflight b = g_inflight a /\ kept A (g_saved a) (g_saved b)) \/
  (g_inflight a = true /\ all_acked A (g_saved a) /\
   ((exists cur ks, g_app_send a = Some cur /\ g_app_send b = Some ks /\ g_epoch b = u16 (g_epoch a + 1) /\ next_keys E cur ks /\
       g_inflight b = false /\ g_saved b = []) \/
    (g_app_send b = None /\ g_epoch b = g_epoch a /\ g_inflight b = g_inflight a /\ kept A (g_saved a) (g_saved b)))).
Lemma ack_step_po E A : preorder (ack_step E A).
Proof.
  split; [intro; left; repeat split; apply kept_refl|].
  intros a b c [(A1 & A2 & A3 & A4)|(A1 & A2 & A3)] [(B1 & B2 & B3 & B4)|(B1 & B2 & B3)].
  - left. repeat split; try congruence. eapply kept_trans; eassumption.
  - right. split; [congruence|]. split; [eapply kept_acked; eassumption|]. rewrite <- A1, <- A2, <- A3.
    destruct B3 as [(cur & ks & X1 & X2 & X3 & X4 & X5 & X6)|(X1 & X2 & X3 & X4)]; [left; exists cur, ks; auto 10|right].
    repeat split; try assumption. eapply kept_trans; eassumption.
  - right. split; [exact A1|]. split; [exact A2|].
    destruct A3 as [(cur & ks & X1 & X2 & X3 & X4 & X5 & X6)|(X1 & X2 & X3 & X4)]; [left|right].
    + exists cur, ks. repeat split; try congruence. rewrite X6 in B4. destruct B4 as [->|B4]; [reflexivity|inversion B4; reflexivity].
    + repeat split; try congruence. eapply kept_trans; eassumption.
  - destruct A3 as [(cur & ks & X1 & X2 & X3 & X4 & X5 & X6)|(X1 & X2 & X3 & X4)]; [congruence|].
    destruct B3 as [(cur & ks & Y1 & _)|(Y1 & Y2 & Y3 & Y4)]; [congruence|].
    right. split; [exact A1|]. split; [exact A2|]. right. repeat split; try congruence. eapply kept_trans; eassumption.
Qed.

Lemma mark_all (A : N -> N -> Prop) es l : (forall ep n, In (ep, n) es -> A ep n) -> Forall2 (marked A) l (map (mark_acked es) l).
Proof.
  intros H. induction l as [|x l IH]; constructor; [|exact IH]. unfold mark_acked.
  destruct (existsb _ es) eqn:He; [|apply marked_refl]. split; [reflexivity|]. intros _. right.
  apply existsb_exists in He. destruct He as ([ep n] & Hi & Hq). cbn [fst snd] in Hq. apply andb_true_iff in Hq. destruct Hq as [Q1 Q2].
  apply N.eqb_eq in Q1, Q2. rewrite Q1, Q2. apply H, Hi.
Qed.

(** The fields the relations of this file speak about. *)
Definition ku_view (e : Eng13) := (g_app_send e, g_epoch e, g_inflight e, g_saved e, g_penc e).
Definition ku_same (a b : Eng13) : Prop := ku_view a = ku_view b.
Lemma ku_same_po : preorder ku_same.
Proof. apply preorder_eq. Qed.

Lemma update_send_spec E s :
  wp (update_send_keys E) (fun r b => match r with
    | Ok _ => exists cur ks, g_app_send s = Some cur /\ g_app_send b = Some ks /\ g_epoch b = u16 (g_epoch s + 1) /\ next_keys E cur ks
    | _ => g_app_send b = None /\ g_epoch b = g_epoch s /\ g_inflight b = g_inflight s /\ g_saved b = g_saved s end) s.
Proof.
  unfold update_send_keys. apply wp_bind, wp_get. destruct (g_app_send s) as [cur|] eqn:Hc; [|apply wp_fail; auto].
  apply wp_bind, wp_modify, wp_bind. set (s1 := set_g_app_send None s).
  eapply wp_mono with (P := fun r b => b = s1 /\ match r with
    | Ok nx => exists h, hkdf_expand_label13 E h (ek_secret cur) (str "traffic upd"%string) [] (hash_len h) = Some nx | _ => True end).
  { unfold derive_next_secret, hash_alg13, label13. apply wp_bind, wp_bind, wp_get. destruct (g_suite s1); [|apply wp_panic; auto].
    apply wp_ret, wp_of_opt. destruct (hkdf_expand_label13 _ _ _ _ _ _) eqn:Hx; [|auto]. split; [reflexivity|eexists; exact Hx]. }
  intros [nx|e|n] b [-> HN]; [|repeat split; reflexivity..]. apply wp_bind.
  eapply wp_mono with (P := fun r b => b = s1 /\ match r with Ok ks => ek_secret ks = nx | _ => True end).
  { unfold derive_epoch_keys, hash_alg13, suite_provider13, label13. wps; split; reflexivity || exact I. }
  intros [ks|e|n] b [-> HK]; [|repeat split; reflexivity..].
  apply wp_bind, wp_modify, wp_bind, wp_modify, wp_bind. unfold draw13, wp at 1. cbn [fst snd]. apply wp_modify.
  exists cur, ks. repeat split. destruct HN as (h & HN). exists h. rewrite HK. exact HN.
Qed.

Lemma process_ack_step E (A : N -> N -> Prop) d s : (forall es, p_ack d = Some es -> forall ep n, In (ep, n) es -> A ep n) ->
  ack_step E A s (snd (process_ack E d s)).
Proof.
  intros HA. unfold process_ack. destruct (p_ack d) as [es|]; [|apply ack_step_po].
  match goal with |- ack_step _ _ _ (snd (?m s)) => change (wp m (fun _ b => ack_step E A s b) s) end.
  apply wp_bind, wp_modify. set (s1 := set_g_saved (map (mark_acked es) (g_saved s)) s).
  assert (T1 : ack_step E A s s1).
  { left. repeat split. right. apply mark_all. exact (HA es eq_refl). }
  apply wp_bind, wp_get, wp_bind.
  eapply wp_mono with (P := fun r s2 => ack_step E A s s2 /\ r = Ok tt).
  { apply wp_when; intros _; [apply wp_modify|]; (split; [|reflexivity]); [|exact T1].
    eapply (po_trans _ (ack_step_po E A)); [exact T1|]. left. repeat split. left. reflexivity. }
  intros r s2 [T2 ->]. apply wp_bind, wp_get. apply wp_when; [|intros _; exact T2].
  intros HC. apply andb_true_iff in HC. destruct HC as [HC H3]. apply andb_true_iff in HC. destruct HC as [H1 H2].
  assert (AA : all_acked A (g_saved s2)).
  { split; [intros X; rewrite X in H2; discriminate|]. apply Forall_forall. intros x Hx. left.
    rewrite forallb_forall in H3. apply H3, Hx. }
  apply wp_bind. eapply wp_mono; [apply update_send_spec|]. intros [[]|e|n] s3 K.
  - apply wp_modify. eapply (po_trans _ (ack_step_po E A)); [exact T2|]. right. split; [exact H1|]. split; [exact AA|].
    left. destruct K as (cur & ks & K1 & K2 & K3 & K4). exists cur, ks. auto 10.
  - eapply (po_trans _ (ack_step_po E A)); [exact T2|]. right. split; [exact H1|]. split; [exact AA|]. right.
    destruct K as (K1 & K2 & K3 & ->). repeat split; try assumption. apply kept_refl.
  - eapply (po_trans _ (ack_step_po E A)); [exact T2|]. right. split; [exact H1|]. split; [exact AA|]. right.
    destruct K as (K1 & K2 & K3 & ->). repeat split; try assumption. apply kept_refl.
Qed.

Lemma ack_step_same E A a b : ku_same a b -> ack_step E A a b.
Proof.
  unfold ku_same, ku_view. intros H. injection H as H1 H2 H3 H4 H5. left. rewrite H1, H2, H3, H4. repeat split. apply kept_refl.
Qed.

Definition penc_same (a b : Eng13) : Prop := g_penc a = g_penc b.
Lemma penc_ack E d : pres penc_same (process_ack E d).
Proof.
  pose proof (@preorder_eq Eng13 bool g_penc) as PO. apply fr_process_ack; try exact PO; try (intros; reflexivity).
  apply op_update_send; try exact PO; intros; reflexivity.
Qed.

Lemma classify_step E (A : N -> N -> Prop) r s : g_penc s = true ->
  (r_epoch r = 0 \/ (r_ctype r = CT_ACK -> forall es, p_ack (r_frag r) = Some es -> forall ep n, In (ep, n) es -> A ep n)) ->
  ack_step E A s (snd (classify_record13 E r s)) /\ g_penc (snd (classify_record13 E r s)) = true.
Proof.
  intros Hp HA. unfold classify_record13. 
  match goal with |- ack_step _ _ _ (snd (?m s)) /\ _ => change (wp m (fun _ b => ack_step E A s b /\ g_penc b = true) s) end.
  assert (RF : ack_step E A s s /\ g_penc s = true) by (split; [apply ack_step_po|exact Hp]).
  apply wp_bind, wp_get. destruct (match g_cn s with Some cn => _ | None => _ end); [apply wp_ret, RF|].
  rewrite Hp, andb_true_r. destruct ((r_epoch r =? 0) && _) eqn:H0; [apply wp_ret, RF|].
  destruct (r_ctype r =? CT_ACK) eqn:Hc.
  - apply wp_bind. apply N.eqb_eq in Hc. destruct HA as [HA|HA].
    { rewrite HA in H0. cbn in H0. discriminate. }
    specialize (HA Hc). unfold wp at 1. pose proof (process_ack_step E A (r_frag r) s HA) as K. pose proof (penc_ack E (r_frag r) s) as P.
    unfold penc_same in P. rewrite Hp in P. destruct (process_ack E (r_frag r) s) as [[u|e|n] b]; cbn [fst snd] in *; [apply wp_ret|..]; auto.
  - assert (Ig : forall b, ku_same s b -> ack_step E A s b /\ g_penc b = true).
    { intros b Hb. split; [apply ack_step_same, Hb|]. unfold ku_same, ku_view in Hb. injection Hb as _ _ _ _ <-. exact Hp. }
    wps; try exact RF. apply Ig. destruct (g_cn s); reflexivity.
Qed.
Lemma classify_all_step E (A : N -> N -> Prop) rs : forall s, g_penc s = true ->
  Forall (fun r => r_epoch r = 0 \/ (r_ctype r = CT_ACK -> forall es, p_ack (r_frag r) = Some es -> forall ep n, In (ep, n) es -> A ep n)) rs ->
  ack_step E A s (snd (classify_all13 E rs s)).
Proof.
  induction rs as [|r rs IH]; intros s Hp F; cbn [classify_all13]; [apply ack_step_po|].
  inversion F as [|? ? F1 F2]; subst. unfold bind. pose proof (classify_step E A r s Hp F1) as [K1 K2].
  destruct (classify_record13 E r s) as [[o|e|n] s1]; cbn [snd] in *; [|exact K1..].
  specialize (IH s1 K2 F2). destruct (classify_all13 E rs s1) as [[o'|e|n] s2]; cbn [snd ret] in *; eapply (ack_step_po E A); eassumption.
Qed.

Lemma ku_same_rec E raw : pres ku_same (rec_parse13 E raw).
Proof.
  pose proof ku_same_po as PO. unfold rec_parse13, unmask13, suite_provider13.
  presauto PO ltac:(idtac; apply pres_modify; intro s; unfold replay_update13; destruct (_ =? 2); reflexivity).
Qed.

(** ** The send keys change by acknowledgements only *)

(** The keys and the epoch stay, and no saved record becomes acknowledged. *)
Definition keys_kept (a b : Eng13) : Prop :=
  g_app_send b = g_app_send a /\ g_epoch b = g_epoch a.
Lemma keys_kept_po : preorder keys_kept.
Proof. split; [intro; split; reflexivity|]. intros a b c [A1 A2] [B1 B2]. split; congruence. Qed.

Ltac keys_pre PO := first [exact PO | intros; split; reflexivity | intros ? ?; split; reflexivity].
Lemma keys_kept_insert E inc : pres keys_kept (insert_incoming13 E inc).
Proof. pose proof keys_kept_po as PO. fr13 ltac:(keys_pre PO). Qed.
Lemma keys_kept_fin E : fin_frame13 E keys_kept.
Proof. pose proof keys_kept_po as PO. constructor; fr13 ltac:(keys_pre PO). Qed.

Definition ack_or_keep (E : Env) (A : N -> N -> Prop) (a b : Eng13) : Prop :=
  (g_app_send b = g_app_send a /\ g_epoch b = g_epoch a) \/
  (g_inflight a = true /\ all_acked A (g_saved a) /\
   ((exists cur ks, g_app_send a = Some cur /\ g_app_send b = Some ks /\ g_epoch b = u16 (g_epoch a + 1) /\ next_keys E cur ks) \/
    (g_app_send b = None /\ g_epoch b = g_epoch a))).

Lemma records_step E p s : g_penc s = true -> ack_step E (acked_in E s p) s (snd (records_parse13 E p s)).
Proof.
  intros Hp. unfold records_parse13, bind.
  pose proof (parse_loop_opened E p (length p) 16 p [] s Hp eq_refl) as W. unfold wp in W.
  pose proof (fr_parse_loop13 E ku_same ku_same_po (ku_same_rec E) (length p) 16 p s) as K.
  destruct (parse_loop13 E (length p) 16 p s) as [[rs|e|n] s1]; cbn [fst snd] in *; [|apply ack_step_same, K..].
  eapply (ack_step_po E); [apply ack_step_same, K|]. apply classify_all_step.
  - unfold ku_same, ku_view in K. injection K as _ _ _ _ <-. exact Hp.
  - eapply Forall_impl; [|exact W]. intros r [H|H]; [left; exact H|right]. intros Hc es He ep n Hi. rewrite Hc in H.
    exists (r_epoch r), (r_seq r), (r_frag r), es. auto.
Qed.
Lemma parse_keys E p s : g_penc s = true ->
  ack_or_keep E (acked_in E s p) s (snd (eng13_parse_packet E p s)).
Proof.
  intros Hp. unfold eng13_parse_packet, bind. pose proof (records_step E p s Hp) as K.
  assert (G : forall b, keys_kept (snd (records_parse13 E p s)) b -> ack_or_keep E (acked_in E s p) s b).
  { intros b [B1 B2]. destruct K as [(K1 & K2 & K3 & K4)|(K1 & K2 & K3)]; [left; split; congruence|right].
    split; [exact K1|]. split; [exact K2|]. destruct K3 as [(cur & ks & X1 & X2 & X3 & X4 & X5 & X6)|(X1 & X2 & X3 & X4)]; [left|right].
    - exists cur, ks. repeat split; congruence.
    - split; congruence. }
  destruct (records_parse13 E p s) as [[rs|e|n] s1]; cbn [fst snd] in *; [|apply G, keys_kept_po..].
  destruct rs as [|r rs]; [apply G, keys_kept_po|]. apply G, keys_kept_insert.
Qed.

Lemma fin_switch E k s r s' : fin13 s = true -> g_penc (end13_eng s) = true -> end13_call E k s = (r, s') ->
  (g_app_send (end13_eng s') = g_app_send (end13_eng s) /\ g_epoch (end13_eng s') = g_epoch (end13_eng s)) \/
  exists p, k = Packet p /\ ack_or_keep E (acked_in E (end13_eng s) p) (end13_eng s) (end13_eng s').
Proof.
  intros Hf Hp Hc. destruct (fin_call E _ (keys_kept_fin E) _ _ _ _ Hf Hc) as [_ [K1 K2]].
  destruct k as [p|cap|now|d|]; cbn [parsed13] in *; try (left; split; assumption).
  right. exists p. split; [reflexivity|]. destruct (parse_keys E p (end13_eng s) Hp) as [[P1 P2]|(P1 & P2 & P3)].
  - left. split; congruence.
  - right. split; [exact P1|]. split; [exact P2|]. destruct P3 as [(cur & ks & X1 & X2 & X3 & X4)|(X1 & X2)]; [left|right].
    + exists cur, ks. repeat split; congruence.
    + split; congruence.
Qed.

(** ** Encryption by the peer, and the records in flight *)

Lemma penc_mono E : eng_frame13 E (fun a b => g_penc a = true -> g_penc b = true).
Proof.
  pose proof (preorder_inv (fun e => g_penc e = true)) as PO.
  frame13_all ltac:(first [exact PO | intros v s H; exact H | intros s H; exact H | intros s H; reflexivity | intros; assumption]).
Qed.

(** The states in which the peer's records are encrypted. *)
Definition np_x (st : CState13) : bool :=
  match st with CT_SendClientHello | CT_AwaitServerHello | CT_Closed => false | _ => true end.
Definition np_y (st : SState13) : bool :=
  match st with ST_AwaitCertificate | ST_AwaitCertificateVerify | ST_AwaitFinished | ST_AwaitApplicationData | ST_HalfClosedLocal => true
  | _ => false end.

Definition posts {S A} (P : A -> S -> Prop) (m : M S A) : Prop := forall s, match m s with (Ok a, s') => P a s' | _ => True end.
Lemma posts_bind {S A B} (P : B -> S -> Prop) (m : M S A) (k : A -> M S B) : (forall a, posts P (k a)) -> posts P (bind m k).
Proof. intros H s. unfold bind. destruct (m s) as [[a|e|n] s']; [apply H|exact I..]. Qed.
Lemma posts_ret {S A} (P : A -> S -> Prop) (a : A) : (forall s, P a s) -> posts P (ret a : M S A).
Proof. intros H s. apply H. Qed.
Ltac posts done :=
  lazymatch goal with
  | |- posts _ (bind _ _) => first [solve [done] | apply posts_bind; intro; posts done]
  | |- posts _ (ret _) => apply posts_ret; intro; solve [done | discriminate]
  | |- posts _ (fail _) => intro; exact I
  | |- posts _ (panic _) => intro; exact I
  | |- posts _ (match ?x with _ => _ end) => destruct x; posts done
  | |- posts _ (let _ := _ in _) => cbv zeta; posts done
  | |- _ => idtac
  end.

Lemma penc_enable E e : match enable_peer_encryption13 E e with (Ok _, e') => g_penc e' = true | _ => True end.
Proof.
  unfold enable_peer_encryption13, bind at 1, modify. unfold bind at 1, get.
  destruct (split_epoch2 (g_rx (set_g_penc true e))) as [a b]. unfold bind at 1.
  match goal with |- match ?m ?s with _ => _ end => assert (K : g_penc s = true -> g_penc (snd (m s)) = true) end.
  { match goal with |- g_penc ?s = true -> g_penc (snd (?m ?s)) = true =>
      assert (K : pres (fun a b => g_penc a = true -> g_penc b = true) m); [|exact (K s)] end.
    apply pres_iterM; [apply preorder_inv|]. intro r. apply (unPres _ _ (xf_parse _ _ (penc_mono E) (r_buf r))). }
  destruct (iterM _ _ _) as [[u|x|n] e']; [|exact I..]. apply K. reflexivity.
Qed.

Lemma np_x_step E c r c' : (np_x (xc_state c) = true -> g_penc (xc_eng c) = true) -> x_step E (xc_state c) c = (r, c') ->
  match r with Ok st => np_x st = true | _ => np_x (xc_state c) = true end -> g_penc (xc_eng c') = true.
Proof.
  intros H Hs.
  assert (Mo : np_x (xc_state c) = true -> g_penc (xc_eng c') = true).
  { intros K. pose proof (lf_x_step E _ (penc_mono E) (xc_state c) c) as P. rewrite Hs in P. exact (P (H K)). }
  destruct r as [st|e|n]; [|exact Mo..]. destruct (np_x (xc_state c)) eqn:Hn; [intros _; exact (Mo eq_refl)|].
  destruct (xc_state c) eqn:Hst; try discriminate Hn; cbn [x_step] in Hs.
  - assert (P : posts (fun st c' => np_x st = true -> False) (x_send_client_hello E)).
    { unfold x_send_client_hello. posts ltac:(idtac; discriminate). }
    specialize (P c). rewrite Hs in P. intros X. destruct (P X).
  - assert (P : posts (fun st c' => np_x st = true -> g_penc (xc_eng c') = true) (x_await_server_hello E)).
    { unfold x_await_server_hello, x_hello_retry, x_server_hello.
      posts ltac:(idtac; lazymatch goal with |- posts _ (bind (xeng (enable_peer_encryption13 E)) _) =>
        let s := fresh in intro s; unfold bind, xeng, zoom; pose proof (penc_enable E (xc_eng s));
        destruct (enable_peer_encryption13 E (xc_eng s)) as [[?|?|?] ?]; try exact Logic.I; unfold advance_peer, modify, ret; cbv beta iota; intros _; assumption end). }
    specialize (P c). rewrite Hs in P. exact P.
  - injection Hs as <- <-. discriminate.
Qed.
Lemma np_y_step E c r c' : (np_y (xs_state c) = true -> g_penc (xs_eng c) = true) -> y_step E (xs_state c) c = (r, c') ->
  match r with Ok st => np_y st = true | _ => np_y (xs_state c) = true end -> g_penc (xs_eng c') = true.
Proof.
  intros H Hs.
  assert (Mo : np_y (xs_state c) = true -> g_penc (xs_eng c') = true).
  { intros K. pose proof (lf_y_step E _ (penc_mono E) (xs_state c) c) as P. rewrite Hs in P. exact (P (H K)). }
  destruct r as [st|e|n]; [|exact Mo..]. destruct (np_y (xs_state c)) eqn:Hn; [intros _; exact (Mo eq_refl)|].
  destruct (xs_state c) eqn:Hst; try discriminate Hn; cbn [y_step] in Hs.
  all: try (lazymatch goal with K : ?m ?x = (Ok _, _) |- _ =>
      assert (P : posts (fun st c' => np_y st = true -> False) m);
      [unfold y_await_client_hello, y_select, cookie13, y_retry, send_hello_retry, y_accept_hello, y_send_server_hello, y_send_encrypted_extensions,
      y_send_certificate_request, y_send_certificate, y_send_certificate_verify; posts ltac:(idtac; first [discriminate | destruct (c_req_cert _); discriminate])|];
      specialize (P x); rewrite K in P; intros X; destruct (P X) end).
  - assert (P : posts (fun st c' => np_y st = true -> g_penc (xs_eng c') = true) (y_send_finished E)).
    { unfold y_send_finished.
      posts ltac:(idtac; lazymatch goal with |- posts _ (bind (yeng (enable_peer_encryption13 E)) _) =>
        let s := fresh in intro s; unfold bind, yeng, zoom; pose proof (penc_enable E (xs_eng s));
        destruct (enable_peer_encryption13 E (xs_eng s)) as [[?|?|?] ?]; try exact Logic.I; unfold advance_peer, modify, ret; cbv beta iota; intros _; assumption end). }
    specialize (P c). rewrite Hs in P. exact P.
Qed.

(** A saved record of a key update sent in this epoch. *)
Definition ku_entry (ep : N) (y : Entry13) : Prop :=
  en13_ctype y = CT_HS /\ en13_epoch y = ep /\ exists sq b, en13_frag y = s_hs_header MT_KeyUpdate 1 sq 0 1 ++ [b].
Definition ku_ok (D : N -> N -> Prop) (ep : N) (y : Entry13) : Prop :=
  ku_entry ep y /\ (en13_acked y = true -> D (en13_epoch y) (en13_seq y)).
(** While a key update is in flight the peer encrypts, and what is saved are records of
    that update; those marked as acknowledged were acknowledged. *)
Definition flying (D : N -> N -> Prop) (e : Eng13) : Prop :=
  g_inflight e = true -> g_penc e = true /\ Forall (ku_ok D (g_epoch e)) (g_saved e).
Definition enc_flying (D : N -> N -> Prop) (e : Eng13) : Prop :=
  g_penc e = true /\ (g_inflight e = true -> Forall (ku_ok D (g_epoch e)) (g_saved e)).

Lemma enc_flying_eq D a b : ku_view a = ku_view b -> enc_flying D a -> enc_flying D b.
Proof.
  unfold ku_view, enc_flying. intros H. injection H as _ -> -> -> ->. exact (fun x => x).
Qed.
Lemma resend_ok E D ep es : forall s, Forall (ku_ok D ep) es ->
  match resend_loop13 E es s with (Ok es', _) => Forall (ku_ok D ep) es' | _ => True end.
Proof.
  induction es as [|x es IH]; intros s F; cbn [resend_loop13]; [constructor|]. inversion F as [|? ? F1 F2]; subst.
  destruct (en13_acked x).
  - unfold bind. specialize (IH s F2). destruct (resend_loop13 E es s) as [[es'|e|n] s']; [|exact I..]. constructor; assumption.
  - unfold bind at 1, get. set (m := if en13_epoch x =? 0 then _ else _).
    unfold bind at 1. destruct (m s) as [[[]|e|n] s1]; [|exact I..]. unfold bind. specialize (IH s1 F2).
    destruct (resend_loop13 E es s1) as [[es'|e|n] s']; [|exact I..]. constructor; [|exact IH].
    destruct F1 as [(K1 & K2 & K3) _]. split; [split; [exact K1|split; [exact K2|exact K3]]|discriminate].
Qed.
Lemma view_plain ct fr : pres ku_same (create_plain13 ct false fr).
Proof. pose proof ku_same_po as PO. fr13 ltac:(first [exact PO|intros; reflexivity]). Qed.
Lemma view_cipher E ct ep fr : pres ku_same (create_cipher13 E ct ep false fr).
Proof. pose proof ku_same_po as PO. fr13 ltac:(first [exact PO|intros; reflexivity]). Qed.
Lemma view_resend E es : pres ku_same (resend_loop13 E es).
Proof.
  pose proof ku_same_po as PO. induction es as [|x es IH]; cbn [resend_loop13];
    presauto PO ltac:(first [exact IH|apply view_plain|apply view_cipher]).
Qed.
Lemma flight_resend_ok E D : pres (fun a b => enc_flying D a -> enc_flying D b) (flight_resend13 E).
Proof.
  intros s [H1 H2]. unfold flight_resend13, bind, get, modify.
  set (s1 := set_g_sealed true (set_g_saved [] s)).
  pose proof (view_resend E (g_saved s) s1) as V.
  pose proof (fun F => resend_ok E D (g_epoch s) (g_saved s) s1 F) as K.
  destruct (resend_loop13 E (g_saved s) s1) as [[es|e|n] s2]; cbn [snd] in *; unfold ku_same, ku_view in V; injection V as V1 V2 V3 V4 V5.
  - split; [cbn; rewrite <- V5; exact H1|]. cbn. rewrite <- V3, <- V2. intros Hi. apply K, H2, Hi.
  - split; [rewrite <- V5; exact H1|]. intros _. rewrite <- V4. constructor.
  - split; [rewrite <- V5; exact H1|]. intros _. rewrite <- V4. constructor.
Qed.
Lemma create_ku_ok E D b : pres (fun a b => enc_flying D a -> enc_flying D b) (create_key_update E b).
Proof.
  intros s [H1 H2]. unfold create_key_update.
  match goal with |- enc_flying D (snd (?m s)) => change (wp m (fun _ e => enc_flying D e) s) end.
  unfold flight_begin13. apply wp_bind, wp_bind. unfold draw13, wp at 1. cbn [fst snd]. apply wp_modify, wp_bind, wp_get, wp_bind, wp_modify, wp_bind.
  set (s1 := set_g_next_hs _ _). eapply wp_mono; [apply create_cipher_spec|]. cbv zeta.
  set (en := mkEntry13 CT_HS _ _ _ false).
  assert (OK : forall e, g_penc e = true -> (g_saved e = [en] \/ g_saved e = []) -> g_epoch e = g_epoch s -> enc_flying D e).
  { intros e E1 E2 E3. split; [exact E1|]. intros _. rewrite E3. destruct E2 as [-> | ->]; [|constructor].
    constructor; [|constructor]. split; [|discriminate]. split; [reflexivity|]. split; [reflexivity|].
    eexists _, _. reflexivity. }
  intros [[]|e|n] s2 K.
  - destruct K as (cs & i & k & body & rec & _ & _ & _ & _ & _ & _ & _ & ->). apply wp_modify.
    apply OK; cbn; unfold emit13, bump_seq, keep13; destruct (can_append13 _ _), (ctx13 _ _); cbn; auto;
      destruct (3 <=? _); cbn; auto; destruct (_ <=? _); cbn; auto.
  - destruct K as [_ ->]. apply OK; cbn; auto.
  - destruct K as [-> | ->]; apply OK; cbn; auto.
Qed.

Ltac fly_pre PO := first [exact PO | intros v s; apply enc_flying_eq; reflexivity | intros s; apply enc_flying_eq; reflexivity
  | intros v s _; apply enc_flying_eq; reflexivity | intros; apply enc_flying_eq; reflexivity].
Lemma fly_cipher E D ct ep fr : pres (fun a b => enc_flying D a -> enc_flying D b) (create_cipher13 E ct ep false fr).
Proof. intro s. apply enc_flying_eq, view_cipher. Qed.
Lemma fly_schedule D now s : enc_flying D s -> enc_flying D (maybe_schedule_ack now s).
Proof.
  unfold maybe_schedule_ack. destruct (negb (handshake_in_progress s)); [apply enc_flying_eq; reflexivity|].
  destruct (is_some _); [exact (fun x => x)|]. destruct (negb _); [exact (fun x => x)|apply enc_flying_eq; reflexivity].
Qed.
Lemma fly_timeout E D now : pres (fun a b => enc_flying D a -> enc_flying D b) (eng13_handle_timeout E now).
Proof.
  pose proof (preorder_inv (enc_flying D)) as PO. unfold eng13_handle_timeout, maybe_flush_ack.
  presauto PO ltac:(first [apply flight_resend_ok | apply fly_cipher
     | apply op_draw13; [exact PO|intros v s; apply enc_flying_eq; reflexivity]
     | apply pres_modify; intro; first [apply fly_schedule|apply enc_flying_eq; reflexivity]]).
Qed.
Lemma fly_ack E D : pres (fun a b => enc_flying D a -> enc_flying D b) (send_ack13 E).
Proof.
  pose proof (preorder_inv (enc_flying D)) as PO. unfold send_ack13, send_ack_inner.
  presauto PO ltac:(first [apply fly_cipher | apply pres_modify; intro; apply enc_flying_eq; reflexivity]).
Qed.
Lemma fly_fin E D : fin_frame13 E (fun a b => enc_flying D a -> enc_flying D b).
Proof.
  pose proof (preorder_inv (enc_flying D)) as PO.
  constructor; fr13o ltac:(idtac; lazymatch goal with
    | |- pres _ (create_key_update _ _) => apply create_ku_ok
    | |- pres _ cancel_flights => intros s [H1 H2]; split; [exact H1|intros _; constructor]
    | |- pres _ (eng13_handle_timeout _ _) => apply fly_timeout
    | |- pres _ (send_ack13 _) => apply fly_ack
    end) ltac:(fly_pre PO).
Qed.

Lemma fly_insert E D inc : pres (fun a b => enc_flying D a -> enc_flying D b) (insert_incoming13 E inc).
Proof.
  pose proof (preorder_inv (enc_flying D)) as PO. unfold insert_incoming13, insert_handshake13, insert_non_handshake13, bsearch13.
  presauto PO ltac:(first [apply flight_resend_ok
     | apply op_draw13; [exact PO|intros v s; apply enc_flying_eq; reflexivity]
     | apply pres_modify; intro; apply enc_flying_eq; reflexivity]).
Qed.

Lemma ku_ok_mono (D D' : N -> N -> Prop) ep l : (forall a b, D a b -> D' a b) -> Forall (ku_ok D ep) l -> Forall (ku_ok D' ep) l.
Proof. intros H. apply Forall_impl. intros y [K1 K2]. split; [exact K1|auto]. Qed.
Lemma kept_ok (D A : N -> N -> Prop) ep a b : kept A a b -> Forall (ku_ok D ep) a -> Forall (ku_ok (fun x y => D x y \/ A x y) ep) b.
Proof.
  intros [->|H] F; [constructor|]. induction H as [|x y a b [M1 M2] H IH]; constructor; inversion F as [|? ? [F1 F2] F3]; subst; [|auto].
  unfold entry_id in M1. injection M1 as E1 E2 E3 E4. destruct F1 as (K1 & K2 & K3).
  split; [split; [congruence|split; [congruence|rewrite E4; exact K3]]|]. intros Hy. rewrite E2, E3.
  destruct (M2 Hy) as [X|X]; [left; apply F2, X|right; exact X].
Qed.
Lemma fly_parse E D p s : enc_flying D s ->
  enc_flying (fun x y => D x y \/ acked_in E s p x y) (snd (eng13_parse_packet E p s)).
Proof.
  intros [H1 H2]. unfold eng13_parse_packet, bind. pose proof (records_step E p s H1) as K.
  assert (P : g_penc (snd (records_parse13 E p s)) = true).
  { assert (Q : pres (fun a b => g_penc a = true -> g_penc b = true) (records_parse13 E p)); [|exact (Q s H1)].
    pose proof (preorder_inv (fun e => g_penc e = true)) as PO.
    fr13 ltac:(first [exact PO | intros v x H; exact H | intros x H; exact H | intros x H; reflexivity | intros; assumption]). }
  assert (G : enc_flying (fun x y => D x y \/ acked_in E s p x y) (snd (records_parse13 E p s))).
  { split; [exact P|]. destruct K as [(K1 & K2 & K3 & K4)|(K1 & K2 & [(cur & ks & _ & _ & _ & _ & K3 & _)|(_ & K3 & _ & K4)])].
    - rewrite K3, K2. intros Hi. eapply kept_ok; [exact K4|exact (H2 Hi)].
    - congruence.
    - intros _. rewrite K3. eapply kept_ok; [exact K4|exact (H2 K1)]. }
  destruct (records_parse13 E p s) as [[rs|e|n] s1]; cbn [fst snd] in *; [|exact G..].
  destruct rs as [|r rs]; [exact G|]. apply fly_insert, G.
Qed.

Lemma still_calls E : call_frame13 E (fun a b => g_inflight a = false -> g_inflight b = false).
Proof.
  pose proof (preorder_inv (fun e => g_inflight e = false)) as PO.
  constructor; fr13o ltac:(idtac; lazymatch goal with
    | |- pres _ (process_ack _ _) => 
        intros s H; match goal with |- context [process_ack ?E ?d] =>
          let K := fresh in pose proof (process_ack_step E (fun _ _ => True) d s (fun _ _ _ _ _ => Logic.I)) as K;
          destruct K as [(_ & _ & K & _)|(K & _)]; congruence end
    end) ltac:(first [exact PO | intros v s H; exact H | intros s H; exact H | intros; assumption]).
Qed.
Lemma still_hs E : hs_frame13 E (fun a b => g_inflight a = false -> g_inflight b = false).
Proof.
  pose proof (preorder_inv (fun e => g_inflight e = false)) as PO.
  constructor; fr13o ltac:(idtac; lazymatch goal with
    | |- pres _ (process_ack _ _) => 
        intros s H; match goal with |- context [process_ack ?E ?d] =>
          let K := fresh in pose proof (process_ack_step E (fun _ _ => True) d s (fun _ _ _ _ _ => Logic.I)) as K;
          destruct K as [(_ & _ & K & _)|(K & _)]; congruence end
    end) ltac:(first [exact PO | intros v s H; exact H | intros s H; exact H | intros; assumption]).
Qed.

(** ** The invariant of an endpoint *)

Definition IX (D : N -> N -> Prop) (c : Client13) : Prop :=
  (np_x (xc_state c) = true -> g_penc (xc_eng c) = true) /\
  (if fin_x (xc_state c) then flying D (xc_eng c) else g_inflight (xc_eng c) = false).
Definition IY (D : N -> N -> Prop) (c : Server13) : Prop :=
  (np_y (xs_state c) = true -> g_penc (xs_eng c) = true) /\
  (if fin_y (xs_state c) then flying D (xs_eng c) else g_inflight (xs_eng c) = false).

Lemma fly_op {A} D (m : M Eng13 A) : pres (fun a b => enc_flying D a -> enc_flying D b) m ->
  pres (fun a b => g_inflight a = false -> g_inflight b = false) m -> pres (fun a b => flying D a -> flying D b) m.
Proof.
  intros H1 H2 s H. destruct (g_inflight s) eqn:Hi.
  - destruct (H Hi) as [K1 K2]. destruct (H1 s (conj K1 (fun _ => K2))) as [L1 L2]. intros Hi'. split; [exact L1|exact (L2 Hi')].
  - intros Hi'. rewrite (H2 s Hi) in Hi'. discriminate.
Qed.
Lemma ix_op {A} D (m : M Eng13 A) c : pres (fun a b => enc_flying D a -> enc_flying D b) m ->
  pres (fun a b => g_inflight a = false -> g_inflight b = false) m -> pres (fun a b => g_penc a = true -> g_penc b = true) m ->
  IX D c -> IX D (snd (xeng m c)).
Proof.
  intros H1 H2 H3 [K1 K2]. destruct (xeng_eng m c) as [X1 X2]. unfold IX. rewrite X1, X2.
  split; [intros N; apply H3, K1, N|]. destruct (fin_x (xc_state c)); [apply (fly_op D m H1 H2), K2|apply H2, K2].
Qed.
Lemma iy_op {A} D (m : M Eng13 A) c : pres (fun a b => enc_flying D a -> enc_flying D b) m ->
  pres (fun a b => g_inflight a = false -> g_inflight b = false) m -> pres (fun a b => g_penc a = true -> g_penc b = true) m ->
  IY D c -> IY D (snd (yeng m c)).
Proof.
  intros H1 H2 H3 [K1 K2]. destruct (yeng_eng m c) as [X1 X2]. unfold IY. rewrite X1, X2.
  split; [intros N; apply H3, K1, N|]. destruct (fin_y (xs_state c)); [apply (fly_op D m H1 H2), K2|apply H2, K2].
Qed.
Lemma flying_mono (D D' : N -> N -> Prop) e : (forall a b, D a b -> D' a b) -> flying D e -> flying D' e.
Proof. intros H K Hi. destruct (K Hi) as [K1 K2]. split; [exact K1|eapply ku_ok_mono; eassumption]. Qed.

Section KuSteps.
Variable E : Env.
Variable D : N -> N -> Prop.
Lemma ix_step c r c' : IX D c -> x_step E (xc_state c) c = (r, c') ->
  match r with Ok st => IX D (set_xc_state st c') | _ => IX D c' end.
Proof.
  intros [K1 K2] Hs. pose proof (np_x_step E c r c' K1 Hs) as NP.
  pose proof (x_step_state E (xc_state c) c) as St. rewrite Hs in St. cbn [snd] in St.
  assert (F : fin_x (xc_state c) = true -> flying D (xc_eng c')).
  { intros Hf. destruct (cstate13_eqb (xc_state c) CT_Closed) eqn:Hc.
    - assert (Hc' : xc_state c = CT_Closed) by (destruct (xc_state c); try discriminate Hc; reflexivity).
      rewrite Hc' in Hs. cbn [x_step] in Hs. injection Hs as <- <-. rewrite Hf in K2. exact K2.
    - assert (Hn : np_x (xc_state c) = true) by (destruct (xc_state c); try discriminate Hf; try discriminate Hc; reflexivity).
      rewrite Hf in K2. pose proof (fin_x_step E _ (fly_fin E D) _ Hf c) as P. rewrite Hs in P. cbn [snd] in P.
      destruct (P (conj (K1 Hn) (fun Hi => proj2 (K2 Hi)))) as [P1 P2]. intros Hi. split; [exact P1|exact (P2 Hi)]. }
  assert (G : fin_x (xc_state c) = false -> g_inflight (xc_eng c') = false).
  { intros Hf. rewrite Hf in K2. pose proof (hs_x_step E _ (still_hs E) _ Hf c) as P. rewrite Hs in P. exact (P K2). }
  destruct r as [st|e|n].
  - split; [exact NP|]. cbn. destruct (fin_x (xc_state c)) eqn:Hf.
    + pose proof (fin_x_stays E _ Hf c) as S. rewrite Hs in S. cbn [fst] in S. rewrite S. exact (F eq_refl).
    + specialize (G eq_refl). destruct (fin_x st); [intros Hi; congruence|exact G].
  - split; [rewrite <- St; exact NP|]. rewrite <- St. destruct (fin_x (xc_state c)); auto.
  - split; [rewrite <- St; exact NP|]. rewrite <- St. destruct (fin_x (xc_state c)); auto.
Qed.
Lemma iy_step c r c' : IY D c -> y_step E (xs_state c) c = (r, c') ->
  match r with Ok st => IY D (set_xs_state st c') | _ => IY D c' end.
Proof.
  intros [K1 K2] Hs. pose proof (np_y_step E c r c' K1 Hs) as NP.
  pose proof (y_step_state E (xs_state c) c) as St. rewrite Hs in St. cbn [snd] in St.
  assert (F : fin_y (xs_state c) = true -> flying D (xs_eng c')).
  { intros Hf. destruct (sstate13_eqb (xs_state c) ST_Closed) eqn:Hc.
    - assert (Hc' : xs_state c = ST_Closed) by (destruct (xs_state c); try discriminate Hc; reflexivity).
      rewrite Hc' in Hs. cbn [y_step] in Hs. injection Hs as <- <-. rewrite Hf in K2. exact K2.
    - assert (Hn : np_y (xs_state c) = true) by (destruct (xs_state c); try discriminate Hf; try discriminate Hc; reflexivity).
      rewrite Hf in K2. pose proof (fin_y_step E _ (fly_fin E D) _ Hf c) as P. rewrite Hs in P. cbn [snd] in P.
      destruct (P (conj (K1 Hn) (fun Hi => proj2 (K2 Hi)))) as [P1 P2]. intros Hi. split; [exact P1|exact (P2 Hi)]. }
  assert (G : fin_y (xs_state c) = false -> g_inflight (xs_eng c') = false).
  { intros Hf. rewrite Hf in K2. pose proof (hs_y_step E _ (still_hs E) _ Hf c) as P. rewrite Hs in P. exact (P K2). }
  destruct r as [st|e|n].
  - split; [exact NP|]. cbn. destruct (fin_y (xs_state c)) eqn:Hf.
    + pose proof (fin_y_stays E _ Hf c) as S. rewrite Hs in S. cbn [fst] in S. rewrite S. exact (F eq_refl).
    + specialize (G eq_refl). destruct (fin_y st); [intros Hi; congruence|exact G].
  - split; [rewrite <- St; exact NP|]. rewrite <- St. destruct (fin_y (xs_state c)); auto.
  - split; [rewrite <- St; exact NP|]. rewrite <- St. destruct (fin_y (xs_state c)); auto.
Qed.

Let PM := xf_step _ _ (penc_mono E).
Ltac three := first [apply (unPres _ _ (ff_timeout _ _ (fly_fin E D) _)) | apply (unPres _ _ (ff_poll _ _ (fly_fin E D) _ _))
   | apply (unPres _ _ (ff_cipher _ _ (fly_fin E D) _ _ _)) | apply (unPres _ _ (ff_cancel _ _ (fly_fin E D)))
   | apply (unPres _ _ (kf_timeout _ _ (still_calls E) _)) | apply (unPres _ _ (kf_poll _ _ (still_calls E) _ _))
   | apply (unPres _ _ (kf_cipher _ _ (still_calls E) _ _ _)) | apply (unPres _ _ (kf_cancel _ _ (still_calls E)))
   | apply (unPres _ _ (xf_timeout _ _ (penc_mono E) _)) | apply (unPres _ _ (xf_poll _ _ (penc_mono E) _ _))
   | apply unPres, (xf_cipher _ _ PM); discriminate | apply (unPres _ _ (xf_cancel _ _ (penc_mono E)))].

Lemma ix_poll cap c : IX D c -> IX D (snd (client13_poll_output cap c)).
Proof.
  intros H. unfold client13_poll_output, bind, get. destruct (xc_events c); [apply ix_op; [three..|exact H]|].
  unfold modify. rewrite snd_event. exact H.
Qed.
Lemma iy_poll cap c : IY D c -> IY D (snd (server13_poll_output cap c)).
Proof.
  intros H. unfold server13_poll_output, bind, get. destruct (xs_events c); [apply iy_op; [three..|exact H]|].
  unfold modify. rewrite snd_event. exact H.
Qed.
Lemma ix_send d c : IX D c -> IX D (snd (client13_send E d c)).
Proof.
  intros H. unfold client13_send, bind, get. destruct (xc_state c); try exact H. apply ix_op; [three..|exact H].
Qed.
Lemma iy_send d c : IY D c -> IY D (snd (server13_send E d c)).
Proof.
  intros H. unfold server13_send, bind, get. destruct (xs_state c); try exact H. apply iy_op; [three..|exact H].
Qed.
Lemma ix_close c : IX D c -> IX D (snd (client13_close E c)).
Proof.
  intros H. unfold client13_close. unfold bind at 1, get. destruct (xc_state c) eqn:Hst; try exact H.
  all: try (destruct H as [_ H]; rewrite Hst in H; cbn in H; unfold bind, xeng, zoom, eng13_abort, modify; cbn;
     split; [discriminate|]; cbn; intros Hi; cbn in Hi; congruence).
  unfold bind. 
  destruct (xeng_eng (create_cipher13 E CT_ALERT (g_epoch (xc_eng c)) false [1; 0]) c) as [_ X2].
  assert (K : IX D (snd (xeng (create_cipher13 E CT_ALERT (g_epoch (xc_eng c)) false [1; 0]) c))) by (apply ix_op; [three..|exact H]).
  destruct (xeng (create_cipher13 E CT_ALERT (g_epoch (xc_eng c)) false [1; 0]) c) as [[[]|e|n] c1]; cbn [snd] in *; [|exact K..].
  assert (K2 : IX D (snd (xeng cancel_flights c1))) by (apply ix_op; [three..|exact K]).
  destruct (xeng_eng cancel_flights c1) as [_ Y2].
  destruct (xeng cancel_flights c1) as [[[]|e|n] c2]; cbn [snd modify] in *; [|exact K2..].
  destruct K2 as [L1 L2]. rewrite Y2, X2, Hst in L1, L2. split; [exact L1|exact L2].
Qed.
Lemma iy_close c : IY D c -> IY D (snd (server13_close E c)).
Proof.
  intros H. unfold server13_close. unfold bind at 1, get. destruct (xs_state c) eqn:Hst; try exact H.
  all: try (destruct H as [_ H]; rewrite Hst in H; cbn in H; unfold bind, yeng, zoom, eng13_abort, modify; cbn;
     split; [discriminate|]; cbn; intros Hi; cbn in Hi; congruence).
  unfold bind. 
  destruct (yeng_eng (create_cipher13 E CT_ALERT (g_epoch (xs_eng c)) false [1; 0]) c) as [_ X2].
  assert (K : IY D (snd (yeng (create_cipher13 E CT_ALERT (g_epoch (xs_eng c)) false [1; 0]) c))) by (apply iy_op; [three..|exact H]).
  destruct (yeng (create_cipher13 E CT_ALERT (g_epoch (xs_eng c)) false [1; 0]) c) as [[[]|e|n] c1]; cbn [snd] in *; [|exact K..].
  assert (K2 : IY D (snd (yeng cancel_flights c1))) by (apply iy_op; [three..|exact K]).
  destruct (yeng_eng cancel_flights c1) as [_ Y2].
  destruct (yeng cancel_flights c1) as [[[]|e|n] c2]; cbn [snd modify] in *; [|exact K2..].
  destruct K2 as [L1 L2]. rewrite Y2, X2, Hst in L1, L2. split; [exact L1|exact L2].
Qed.

Lemma ix_tick now c : IX D c -> IX D (draw_random13 E (set_xc_now now c)).
Proof. intros H. unfold draw_random13. destruct (xc_random _); exact H. Qed.
Lemma iy_tick now c : IY D c -> IY D (draw_random13s E (set_xs_now now c)).
Proof. intros H. unfold draw_random13s. destruct (xs_random _); exact H. Qed.
Lemma ix_timeout now c : IX D c -> IX D (snd (xeng (eng13_handle_timeout E now) c)).
Proof. intros H. apply ix_op; [three..|exact H]. Qed.
Lemma iy_timeout now c : IY D c -> IY D (snd (yeng (eng13_handle_timeout E now) c)).
Proof. intros H. apply iy_op; [three..|exact H]. Qed.

Lemma ix_call k c r c' : IX D c -> (forall p, k = Packet p -> IX D (snd (xeng (eng13_parse_packet E p) c))) ->
  client13_call E k c = (r, c') -> IX D c'.
Proof.
  intros H HP Hc. destruct (fun A1 A2 A3 A4 A5 A6 => ao_call_from E (fun _ c => IX D c) (fun _ => False) A1 A2 A3 A4 A5 A6 k [] c r c' H HP Hc)
    as [K|[]]; [..|exact K].
  - intros now os c1. apply ix_tick.
  - intros now os c1. apply ix_timeout.
  - intros os c1 r1 c2 J Hs. pose proof (ix_step _ _ _ J Hs) as K. destruct r1; [exact K|left; exact K..].
  - intros cap os c1 r1 c2 J Hs. pose proof (ix_poll cap _ J) as K. rewrite Hs in K. exact K.
  - intros d os c1. apply ix_send.
  - intros os c1. apply ix_close.
Qed.
Lemma iy_call k c r c' : IY D c -> (forall p, k = Packet p -> IY D (snd (yeng (eng13_parse_packet E p) (retained13 p c)))) ->
  server13_call E k c = (r, c') -> IY D c'.
Proof.
  intros H HP Hc. refine (bo_call_from E (fun _ c => IY D c) _ _ _ _ _ _ _ _ k [] c r c' H HP Hc).
  - intros now os c1. apply iy_tick.
  - intros now os c1. apply iy_timeout.
  - intros v os c1 J. exact J.
  - intros v os c1 J. exact J.
  - intros os c1 r1 c2 J Hs. exact (iy_step _ _ _ J Hs).
  - intros cap os c1 r1 c2 J Hs. pose proof (iy_poll cap _ J) as K. rewrite Hs in K. exact K.
  - intros d os c1. apply iy_send.
  - intros os c1. apply iy_close.
Qed.
End KuSteps.

(** ** Histories *)

(** A datagram of the history held an acknowledgement of the record. *)
Definition acked_before (E : Env) (s0 : End13) (h : list (Call * Reply)) (ep n : N) : Prop :=
  exists h1 p r h2 s1, h = h1 ++ (Packet p, r) :: h2 /\ history13 E s0 h1 s1 /\ acked_in E (end13_eng s1) p ep n.
Definition Inv13 (D : N -> N -> Prop) (s : End13) : Prop := match s with XC c => IX D c | XS c => IY D c end.

Lemma ix_mono (D D' : N -> N -> Prop) c : (forall a b, D a b -> D' a b) -> IX D c -> IX D' c.
Proof. intros H [K1 K2]. split; [exact K1|]. destruct (fin_x (xc_state c)); [eapply flying_mono; eassumption|exact K2]. Qed.
Lemma iy_mono (D D' : N -> N -> Prop) c : (forall a b, D a b -> D' a b) -> IY D c -> IY D' c.
Proof. intros H [K1 K2]. split; [exact K1|]. destruct (fin_y (xs_state c)); [eapply flying_mono; eassumption|exact K2]. Qed.

Lemma flying_parse E (D D' : N -> N -> Prop) p e : (forall a b, D a b -> D' a b) -> (forall a b, acked_in E e p a b -> D' a b) ->
  flying D e -> flying D' (snd (eng13_parse_packet E p e)).
Proof.
  intros H1 H2 K. destruct (g_inflight e) eqn:Hi.
  - destruct (K Hi) as [K1 K2]. destruct (fly_parse E D p e (conj K1 (fun _ => K2))) as [L1 L2].
    intros Hi'. split; [exact L1|]. eapply ku_ok_mono; [|exact (L2 Hi')]. intros a b [X|X]; auto.
  - intros Hi'. rewrite (unPres _ _ (kf_parse _ _ (still_calls E) p) e Hi) in Hi'. discriminate.
Qed.
Lemma inv_call E (D D' : N -> N -> Prop) k s r s' : (forall a b, D a b -> D' a b) ->
  (forall p, k = Packet p -> forall a b, acked_in E (end13_eng s) p a b -> D' a b) ->
  Inv13 D s -> end13_call E k s = (r, s') -> Inv13 D' s'.
Proof.
  intros H1 H2 K Hc. destruct s as [c|c]; cbn [end13_call Inv13 end13_eng] in *.
  - destruct (client13_call E k c) as [r1 c1] eqn:Hk. injection Hc as <- <-. cbn [Inv13].
    eapply ix_call; [eapply ix_mono; eassumption| |exact Hk].
    intros p Hp. destruct (xeng_eng (eng13_parse_packet E p) c) as [X1 X2]. destruct K as [K1 K2]. unfold IX. rewrite X1, X2.
    split; [intros N; apply (unPres _ _ (xf_parse _ _ (penc_mono E) p)), K1, N|].
    destruct (fin_x (xc_state c)); [eapply flying_parse; eauto|apply (unPres _ _ (kf_parse _ _ (still_calls E) p)), K2].
  - destruct (server13_call E k c) as [r1 c1] eqn:Hk. injection Hc as <- <-. cbn [Inv13].
    eapply iy_call; [eapply iy_mono; eassumption| |exact Hk].
    intros p Hp. destruct (yeng_eng (eng13_parse_packet E p) (retained13 p c)) as [X1 X2]. destruct K as [K1 K2]. unfold IY. rewrite X1, X2.
    assert (R : xs_eng (retained13 p c) = xs_eng c /\ xs_state (retained13 p c) = xs_state c)
      by (unfold retained13; destruct (_ && _); split; reflexivity).
    destruct R as [-> ->].
    split; [intros N; apply (unPres _ _ (xf_parse _ _ (penc_mono E) p)), K1, N|].
    destruct (fin_y (xs_state c)); [eapply flying_parse; eauto|apply (unPres _ _ (kf_parse _ _ (still_calls E) p)), K2].
Qed.
Lemma start_inv E cfg cert key s : start13 E cfg cert key s -> Inv13 (fun _ _ => False) s.
Proof.
  intros [s0 H|random fragment kx now c H].
  - pose proof (fresh13_eng _ _ _ _ _ H) as ((b & n & F) & G).
    destruct s0 as [c|c]; [destruct G as [now G]|destruct G as (now & auto & e & G)]; cbn [end13_eng] in *.
    + assert (S : xc_state c = CT_SendClientHello) by (rewrite G; reflexivity).
      cbn [Inv13]. unfold IX. rewrite S, F. split; [discriminate|reflexivity].
    + assert (S : xs_state c = ST_AwaitClientHello) by (rewrite G; reflexivity).
      cbn [Inv13]. unfold IY. rewrite S, F. split; [discriminate|reflexivity].
  - rewrite from_hybrid in H. 
    destruct (client13_call E (Tick now) (hybrid_client E cfg cert key random fragment kx now)) as [r1 c1] eqn:Hc.
    pose proof (tick_run _ _ _ _ _ H) as K. rewrite Hc in K. cbn [snd] in K. subst c1.
    cbn [Inv13]. refine (ix_call E _ (Tick now) _ _ _ _ _ Hc); [|intros p Hp; discriminate Hp].
    split; [discriminate|reflexivity].
Qed.
Lemma acked_more E s0 h x a b : acked_before E s0 h a b -> acked_before E s0 (h ++ [x]) a b.
Proof.
  intros (h1 & p & r & h2 & s1 & -> & H). exists h1, p, r, (h2 ++ [x]), s1. split; [rewrite <- app_assoc; reflexivity|exact H].
Qed.
Lemma acked_now E s0 h p r s a b : history13 E s0 h s -> acked_in E (end13_eng s) p a b -> acked_before E s0 (h ++ [(Packet p, r)]) a b.
Proof. intros H K. exists h, p, r, [], s. auto. Qed.
Lemma history_inv E cfg cert key s0 h s : start13 E cfg cert key s0 -> history13 E s0 h s -> Inv13 (acked_before E s0 h) s.
Proof.
  intros H0. induction 1 as [|h s k r s' H IH NP C].
  - eapply start_inv in H0. destruct s0; [eapply ix_mono|eapply iy_mono]; try exact H0; intros ? ? [].
  - eapply inv_call; [| |exact IH|exact C].
    + intros a b. apply acked_more.
    + intros p -> a b. apply acked_now, H.
Qed.

(** With no key update in flight a datagram does not touch the keys for sending. *)
Lemma parse_quiet E p : pres (fun a b => g_inflight a = false -> g_inflight b = false /\ keys_kept a b) (eng13_parse_packet E p).
Proof.
  assert (PO : preorder (fun a b => g_inflight a = false -> g_inflight b = false /\ keys_kept a b)).
  { split; [intros a H; split; [exact H|apply keys_kept_po]|]. intros a b c H K Hi. destruct (H Hi) as [X1 X2]. destruct (K X1) as [Y1 Y2].
    split; [exact Y1|eapply keys_kept_po; eassumption]. }
  fr13o ltac:(idtac; lazymatch goal with
    | |- pres _ (process_ack _ _) => 
        intros s H; match goal with |- context [process_ack ?E ?d] =>
          let K := fresh in pose proof (process_ack_step E (fun _ _ => True) d s (fun _ _ _ _ _ => Logic.I)) as K;
          destruct K as [(? & ? & K & _)|(K & _)]; [split; [congruence|split; congruence]|congruence] end
    end) ltac:(first [exact PO | intros v s H; split; [exact H|split; reflexivity] | intros s H; split; [exact H|split; reflexivity]
    | intros v s _ H; split; [exact H|split; reflexivity] | intros; assumption]).
Qed.

(** The keys for sending of a connected endpoint change only when the datagrams
    received acknowledge every record of the key update in flight. *)
Lemma switch13 E cfg cert key s0 h s k r s' : start13 E cfg cert key s0 -> history13 E s0 h s ->
  fin13 s = true -> end13_call E k s = (r, s') ->
  (g_app_send (end13_eng s') = g_app_send (end13_eng s) /\ g_epoch (end13_eng s') = g_epoch (end13_eng s)) \/
  (exists p, k = Packet p) /\ g_saved (end13_eng s) <> [] /\
  Forall (fun x => ku_entry (g_epoch (end13_eng s)) x /\ acked_before E s0 (h ++ [(k, r)]) (en13_epoch x) (en13_seq x)) (g_saved (end13_eng s)) /\
  ((exists cur ks, g_app_send (end13_eng s) = Some cur /\ g_app_send (end13_eng s') = Some ks /\
      g_epoch (end13_eng s') = u16 (g_epoch (end13_eng s) + 1) /\ next_keys E cur ks) \/
   (g_app_send (end13_eng s') = None /\ g_epoch (end13_eng s') = g_epoch (end13_eng s))).
Proof.
  intros H0 H Hf Hc. pose proof (history_inv _ _ _ _ _ _ _ H0 H) as I.
  assert (F : flying (acked_before E s0 h) (end13_eng s)).
  { destruct s as [c|c]; cbn [Inv13 end13_eng fin13] in *; destruct I as [_ I]; rewrite Hf in I; exact I. }
  destruct (g_inflight (end13_eng s)) eqn:Hi.
  - destruct (F Hi) as [F1 F2]. destruct (fin_switch _ _ _ _ _ Hf F1 Hc) as [K|(p & -> & [K|(K1 & K2 & K3)])]; [left; exact K..|right].
    split; [eauto|]. destruct K2 as [K2 K4]. split; [exact K2|]. split; [|exact K3].
    apply Forall_forall. intros x Hx. pose proof (proj1 (Forall_forall _ _) F2 x Hx) as [X1 X2].
    split; [exact X1|]. destruct (proj1 (Forall_forall _ _) K4 x Hx) as [Y|Y]; [apply acked_more, X2, Y|eapply acked_now; eassumption].
  - left. destruct (fin_call E _ (keys_kept_fin E) _ _ _ _ Hf Hc) as [_ [K1 K2]].
    destruct k as [p|cap|now|d|]; cbn [parsed13] in *; try (split; assumption).
    destruct (parse_quiet E p _ Hi) as [_ [P1 P2]]. split; congruence.
Qed.
