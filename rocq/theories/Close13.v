(** Proofs about what a connected DTLS 1.3 endpoint delivers: the queue of received
    records, and the close_notify. *)
From Coq Require Import Permutation.
From Verif Require Import Prelude PreludeFacts Types Codec Codec12 Codec13 Record12 Record13 Monad MonadFacts Timer Env Config Aead Engine12 Client12
  Engine13 Client13 Server13 Context12 History12 History12Facts History13 Frame13 Lift13 Index13 Lift12 Ledger12 Poll12Proofs Rx12Ledger Trace13 Trace13Proofs Out13 Rx13Proofs PropRx13 Open13 Poll13Proofs Fin13 KeyUpd13 Recv13 Est13 Alert13 Send13Proofs.

(** ** Multisets *)

(** [a] is contained in [b], with multiplicity. *)
Definition within {A} (a b : list A) : Prop := exists rest, Permutation (a ++ rest) b.
Lemma within_refl {A} (a : list A) : within a a.
Proof. exists []. rewrite app_nil_r. apply Permutation_refl. Qed.
Lemma within_trans {A} (a b c : list A) : within a b -> within b c -> within a c.
Proof. intros [x H] [y K]. exists (x ++ y). rewrite app_assoc. eapply Permutation_trans; [apply Permutation_app_tail, H|exact K]. Qed.
Lemma within_app {A} (a b c d : list A) : within a b -> within c d -> within (a ++ c) (b ++ d).
Proof.
  intros [x H] [y K]. exists (x ++ y). eapply Permutation_trans; [|apply Permutation_app; [exact H|exact K]].
  rewrite <- !app_assoc. apply Permutation_app_head. rewrite !app_assoc. apply Permutation_app_tail, Permutation_app_comm.
Qed.
Lemma within_perm {A} (a b : list A) : Permutation a b -> within a b.
Proof. intros H. exists []. rewrite app_nil_r. exact H. Qed.
Lemma within_sub {A} (a b : list A) : sub a b -> within a b.
Proof.
  induction 1 as [|x a b H [r IH]|x a b H [r IH]]; [apply within_refl| |].
  - exists (x :: r). eapply Permutation_trans; [apply Permutation_sym, Permutation_middle|]. apply perm_skip, IH.
  - exists r. cbn [app]. apply perm_skip, IH.
Qed.
Lemma within_app_l {A} (a b c : list A) : within (a ++ b) c -> within a c.
Proof. intros [x H]. exists (b ++ x). rewrite app_assoc. exact H. Qed.
Lemma within_map {A B} (f : A -> B) a b : within a b -> within (map f a) (map f b).
Proof. intros [x H]. exists (map f x). rewrite <- map_app. apply Permutation_map, H. Qed.
Lemma within_filter {A} (f : A -> bool) a b : within a b -> within (filter f a) (filter f b).
Proof. intros [x H]. exists (filter f x). rewrite <- filter_app. apply filter_perm, H. Qed.
Lemma within_In {A} (a b : list A) x : within a b -> In x a -> In x b.
Proof. intros [r H] Hi. eapply Permutation_in; [exact H|]. apply in_or_app. auto. Qed.
Lemma within_nil {A} (a : list A) : within a [] -> a = [].
Proof. intros [r H]. apply Permutation_sym, Permutation_nil in H. destruct a; [reflexivity|discriminate]. Qed.

(** ** The records of a datagram *)

Fixpoint cut13 (fuel : nat) (p : bytes) : list bytes :=
  match fuel, p with
  | S fuel', _ :: _ => match rec_bound13 p with BRec n => firstn n p :: cut13 fuel' (skipn n p) | _ => [] end
  | _, _ => []
  end.
Definition records13 (p : bytes) : list bytes := cut13 (length p) p.
(** The record [raw] opens, under the key [e] receives epoch [ep] with and the nonce of
    number [n], to [content] of type [t]. *)
Definition opens13 (E : Env) (e : Eng13) (raw : bytes) (t ep n : N) (content : bytes) : Prop :=
  exists hdr k pt, recv_keys13 e ep = Some k /\ (length hdr <= length raw)%nat /\
    e_open E (ek_suite k) (ek_key k) (nonce_xor (ek_iv k) n) hdr (skipn (length hdr) raw) = Some pt /\
    inner_type pt = Some (t, content).

Lemma rec_parse_plain_type E raw e r e' : is_ct_header (hd 0 raw) = false -> rec_parse13 E raw e = (Ok (Some r), e') ->
  r_epoch r = 0 /\ is_app r = false.
Proof.
  intros Hc H. unfold rec_parse13, bind, get in H. rewrite Hc in H. cbn [andb negb orb] in H. unfold ret in H.
  unfold p_parsed13, p_rec13 in H. destruct raw as [|b l]; [discriminate|]. cbn [hd] in Hc. rewrite Hc in H.
  unfold p_plain13 in H.
  destruct (p_u8 (b :: l)) as [[ct l1]|]; [|discriminate]. destruct (memN ct _) eqn:Hm; [|discriminate]. cbn [negb] in H.
  destruct (p_u16 l1) as [[v l2]|]; [|discriminate]. destruct (negb (_ || _)); [discriminate|].
  destruct (p_u16 l2) as [[ep l3]|]; [|discriminate]. destruct (ep =? 0) eqn:He; [|discriminate]. cbn [negb] in H.
  destruct (p_u48 l3) as [[sq l4]|]; [|discriminate]. destruct (p_u16 l4) as [[n l5]|]; [|discriminate].
  destruct (take _ _) as [[fr rest]|]; [|discriminate]. injection H as <- _. apply N.eqb_eq in He. split; [exact He|].
  unfold is_app. cbn [rec13_of r_ctype d_ctype]. destruct (N.eqb_spec ct CT_APP) as [->|]; [discriminate Hm|reflexivity].
Qed.
Lemma Forall2_weaken {A B} (P Q : A -> B -> Prop) a b : (forall x y, P x y -> Q x y) -> Forall2 P a b -> Forall2 Q a b.
Proof. intros H. induction 1; constructor; auto. Qed.
Definition from_raw (E : Env) (e : Eng13) (raw : bytes) (r : Rec12) : Prop :=
  (r_epoch r = 0 /\ is_app r = false) \/ opens13 E e raw (r_ctype r) (r_epoch r) (r_seq r) (r_frag r).
Lemma parse_loop_raws E : forall fuel room q e, g_penc e = true ->
  wp (parse_loop13 E fuel room q) (fun o _ => match o with Ok rs =>
    exists raws, sub raws (cut13 fuel q) /\ Forall2 (from_raw E e) raws rs | _ => True end) e.
Proof.
  induction fuel as [|fuel IH]; intros room q e Hp; destruct q as [|b q]; cbn [parse_loop13];
    try (apply wp_ret; exists []; split; [apply sub_nil_l|constructor]); try exact I.
  cbn [cut13]. destruct (rec_bound13 (b :: q)) as [| |n]; [apply wp_ret; exists []; split; [constructor|constructor]|exact I|].
  set (w := b :: q) in *.
  apply wp_bind. unfold wp at 1. destruct (rec_parse13 E (firstn n w) e) as [[o|x|x] e1] eqn:HR; cbn [fst snd]; [|exact I..].
  pose proof (same_keys_rec_parse E (firstn n w) e) as SK. rewrite HR in SK. cbn [snd] in SK. destruct SK as [SK1 SK2].
  assert (Rest : forall room', wp (parse_loop13 E fuel room' (skipn n w)) (fun o _ => match o with Ok rs =>
     exists raws, sub raws (cut13 fuel (skipn n w)) /\ Forall2 (from_raw E e) raws rs | _ => True end) e1).
  { intro room'. eapply wp_mono; [apply (IH room' _ e1); congruence|].
    intros [rs|x|x] e2; [|trivial..]. intros (raws & R1 & R2). exists raws. split; [exact R1|].
    eapply Forall2_weaken; [|exact R2]. intros raw r [A|A]; [left; exact A|right].
    destruct A as (h & k & pt & A1 & A2). exists h, k, pt. rewrite <- SK2. auto. }
  destruct o as [r|].
  - destruct room as [|room]; [exact I|]. apply wp_bind. eapply wp_mono; [apply Rest|].
    intros [rs|x|x] e2; [|trivial..]. intros (raws & R1 & R2). apply wp_ret. exists (firstn n w :: raws). split; [constructor; exact R1|].
    constructor; [|exact R2].
    destruct (is_ct_header (hd 0 (firstn n w))) eqn:Hc.
    + right. exact (rec_parse_opens _ _ _ _ _ (conj Hc Hp) HR).
    + left. exact (rec_parse_plain_type _ _ _ _ _ Hc HR).
  - eapply wp_mono; [apply Rest|]. intros [rs|x|x] e2; [|trivial..]. intros (raws & R1 & R2). exists raws. split; [apply sub_skip, R1|exact R2].
Qed.

(** ** Classification *)

(** Number [n] of epoch [ep] does not come after the close_notify noted, if any. *)
Definition before_close (e : Eng13) (ep n : N) : Prop :=
  forall cep cn, g_cn e = Some (cep, cn) -> ep < cep \/ ep = cep /\ n <= cn.
Definition cnk (a b : Eng13) : Prop := g_rx b = g_rx a /\ g_penc b = g_penc a /\ (g_cn a <> None -> g_cn b = g_cn a).
Lemma cnk_po : preorder cnk.
Proof.
  split; [intro; repeat split|]. intros a b c (A1 & A2 & A3) (B1 & B2 & B3). split; [congruence|]. split; [congruence|].
  intros H. rewrite <- A3 by exact H. apply B3. rewrite A3 by exact H. exact H.
Qed.
Ltac cnk1 := intros; repeat split; fail.
Lemma cnk_rec E r : pres cnk (classify_record13 E r).
Proof.
  pose proof cnk_po as PO. fr13 ltac:(first [exact PO | cnk1 | intros s; unfold cnk; destruct (g_cn s) eqn:?; cbn; repeat split; congruence ]).
Qed.
Lemma classify_kept E r e r' e' : classify_record13 E r e = (Ok (Some r'), e') -> r' = r /\ before_close e (r_epoch r) (r_seq r).
Proof.
  intros H. unfold classify_record13, bind at 1, get in H.
  destruct (match g_cn e with Some _ => _ | None => _ end) eqn:G; [discriminate|].
  assert (B : before_close e (r_epoch r) (r_seq r)).
  { intros a b Hg. rewrite Hg in G. unfold cmp_pair in G. cbn [fst snd] in G. destruct (N.compare_spec (r_epoch r) a) as [->|L|L]; [|auto|discriminate].
    destruct (N.compare_spec (r_seq r) b); [right; lia..|discriminate]. }
  destruct (_ && _); [discriminate|]. destruct (r_ctype r =? CT_ACK).
  { unfold bind in H. destruct (process_ack E (r_frag r) e) as [[u|x|x] e1]; discriminate. }
  destruct (r_ctype r =? CT_ALERT).
  { destruct (nth_error _ _) as [d|]; [|discriminate]. destruct (d =? 0); [discriminate|]. destruct (d =? 90); discriminate. }
  destruct (r_ctype r =? CT_CCS); [discriminate|]. injection H as <- _. split; [reflexivity|exact B].
Qed.
Lemma before_later e e' ep n : (g_cn e <> None -> g_cn e' = g_cn e) -> before_close e' ep n -> before_close e ep n.
Proof. intros H K a b Hg. apply K. rewrite H; congruence. Qed.
Lemma classify_all_kept E : forall rs e, wp (classify_all13 E rs) (fun o e' => cnk e e' /\ match o with Ok rs' =>
   sub rs' rs /\ Forall (fun r => before_close e (r_epoch r) (r_seq r)) rs' | _ => True end) e.
Proof.
  induction rs as [|r rs IH]; intro e; cbn [classify_all13]; [apply wp_ret; split; [apply cnk_po|split; constructor]|].
  apply wp_bind. unfold wp at 1. pose proof (cnk_rec E r e) as K. destruct (classify_record13 E r e) as [[o|x|x] e1] eqn:Hc; cbn [fst snd] in *; [|split; [exact K|exact I]..].
  apply wp_bind. eapply wp_mono; [apply IH|]. intros [rs'|x|x] e2; cbn beta; intros [K2 H].
  2, 3: split; [eapply cnk_po; eassumption|exact I].
  assert (K' : cnk e e2) by (eapply cnk_po; eassumption).
  apply wp_ret. split; [exact K'|]. destruct H as [H1 H2].
  assert (H2' : Forall (fun r => before_close e (r_epoch r) (r_seq r)) rs').
  { eapply Forall_impl; [|exact H2]. intros x. apply before_later, K. }
  destruct o as [r'|]; [|split; [apply sub_skip, H1|exact H2']].
  apply classify_kept in Hc. destruct Hc as [-> Hc]. split; [apply sub_take, H1|constructor; assumption].
Qed.

(** What is taken from a datagram: the contents of some of its records, all of them
    application data records that open and do not come after the close_notify. *)
Definition takes_app13 (E : Env) (e : Eng13) (p : bytes) (items : list bytes) : Prop :=
  exists raws, sub raws (records13 p) /\
    Forall2 (fun raw d => exists ep n, opens13 E e raw CT_APP ep n d /\ before_close e ep n) raws items.

Lemma sub_Forall2 {A B} (P : A -> B -> Prop) : forall b' b, sub b' b -> forall a, Forall2 P a b -> exists a', sub a' a /\ Forall2 P a' b'.
Proof.
  induction 1 as [|x b' b H IH|x b' b H IH]; intros a F; inversion F; subst; clear F.
  - exists []. split; constructor.
  - destruct (IH _ H4) as (a' & A1 & A2). exists a'. split; [apply sub_skip|]; assumption.
  - destruct (IH _ H4) as (a' & A1 & A2). exists (x0 :: a'). split; [apply sub_take|constructor]; assumption.
Qed.
Lemma filter_sub {A} (f : A -> bool) l : sub (filter f l) l.
Proof. induction l as [|x l IH]; cbn [filter]; [constructor|]. destruct (f x); constructor; exact IH. Qed.

Definition contents13 (rs : list Rec12) : list bytes := map r_frag (filter unhandled_app rs).
(** The application data waiting in the queue. *)
Definition waiting13 (e : Eng13) : list bytes := contents13 (concat (g_rx e)).
Lemma contents_app a b : contents13 (a ++ b) = contents13 a ++ contents13 b.
Proof. unfold contents13. rewrite filter_app, map_app. reflexivity. Qed.
Lemma contents_wk a b : wk a b -> sub (contents13 a) (contents13 b).
Proof.
  intros H. apply wk_items in H. unfold contents13.
  assert (K : forall l, map r_frag (filter unhandled_app l) = map snd (map app_item (filter unhandled_app l))) by (intro; rewrite map_map; reflexivity).
  rewrite !K. clear K. remember (map app_item (filter unhandled_app a)) as u. remember (map app_item (filter unhandled_app b)) as v. clear - H.
  induction H; cbn [map]; constructor; assumption.
Qed.

Lemma taken_items E p e rs e' : g_penc e = true -> records_parse13 E p e = (Ok rs, e') ->
  cnk e e' /\ takes_app13 E e p (contents13 rs).
Proof.
  intros Hp H. unfold records_parse13, bind in H.
  pose proof (parse_loop_raws E (length p) 16 p e Hp) as W. unfold wp in W.
  assert (K : cnk e (snd (parse_loop13 E (length p) 16 p e))).
  { pose proof cnk_po as PO. assert (Q : pres cnk (parse_loop13 E (length p) 16 p)); [|apply Q].
    fr13 ltac:(first [exact PO | intros; repeat split; fail | intros ep sq s; unfold replay_update13; destruct (_ =? 2); repeat split]). }
  destruct (parse_loop13 E (length p) 16 p e) as [[rs0|x|x] e1]; cbn [fst snd] in *; [|discriminate..].
  pose proof (classify_all_kept E rs0 e1) as C. unfold wp in C. rewrite H in C. cbn [fst snd] in C. destruct C as (C1 & C2 & C3).
  split; [eapply cnk_po; eassumption|]. destruct W as (raws & W1 & W2).
  destruct (sub_Forall2 _ _ _ (sub_trans _ _ _ (filter_sub unhandled_app rs) C2) _ W2) as (raws' & S1 & S2).
  exists raws'. split; [eapply sub_trans; eassumption|]. unfold contents13.
  assert (Q : Forall (fun r => unhandled_app r = true /\ before_close e (r_epoch r) (r_seq r)) (filter unhandled_app rs)).
  { rewrite Forall_forall in *. intros r Hr. apply filter_In in Hr. destruct Hr as [R1 R2]. split; [exact R2|].
    eapply before_later; [apply K|]. apply C3, R1. }
  revert Q S2. generalize (filter unhandled_app rs). intros l Q S2. clear - Q S2. induction S2 as [|raw r raws rs F S2 IH]; [constructor|].
  inversion Q as [|? ? [Q1 Q2] Q3]; subst. cbn [map]. constructor; [|apply IH, Q3].
  unfold unhandled_app in Q1. apply andb_prop in Q1. destruct Q1 as [Q1 _].
  destruct F as [[_ F]|F]; [congruence|]. unfold is_app in Q1. apply N.eqb_eq in Q1. rewrite Q1 in F. eauto.
Qed.

(** ** The queue *)

Lemma concat_set_nth {A} (x : list A) q : forall i, within (concat (set_nth i x q)) (x ++ concat q).
Proof.
  induction q as [|y q IH]; intros i; [exists x; destruct i; cbn; rewrite app_nil_r; apply Permutation_refl|].
  destruct i as [|i]; cbn [set_nth concat].
  - exists y. rewrite <- app_assoc. apply Permutation_app_head, Permutation_app_comm.
  - eapply within_trans; [apply (within_app y y _ _ (within_refl y) (IH i))|]. apply within_perm.
    rewrite !app_assoc. apply Permutation_app_tail, Permutation_app_comm.
Qed.
Lemma contents_within a b : within a b -> within (contents13 a) (contents13 b).
Proof. intros H. apply within_map, within_filter, H. Qed.
Lemma insert_within E inc e : within (waiting13 (snd (insert_incoming13 E inc e))) (contents13 inc ++ waiting13 e).
Proof.
  change (wp (insert_incoming13 E inc) (fun _ e' => within (waiting13 e') (contents13 inc ++ waiting13 e)) e).
  assert (Same : forall e', g_rx e' = g_rx e -> within (waiting13 e') (contents13 inc ++ waiting13 e)).
  { intros e' H. unfold waiting13. rewrite H. exists (contents13 inc). apply Permutation_app_comm. }
  assert (Ins : forall e' i, g_rx e' = insert_at i inc (g_rx e) -> within (waiting13 e') (contents13 inc ++ waiting13 e)).
  { intros e' i H. unfold waiting13. rewrite H, <- contents_app. apply contents_within, within_perm, concat_insert. }
  assert (Set_ : forall e' i, g_rx e' = set_nth i inc (g_rx e) -> within (waiting13 e') (contents13 inc ++ waiting13 e)).
  { intros e' i H. unfold waiting13. rewrite H, <- contents_app. apply contents_within, concat_set_nth. }
  unfold insert_incoming13. apply wp_bind, wp_get. destruct (_ <=? _); [apply Same; reflexivity|].
  destruct inc as [|r inc]; [apply Same; reflexivity|]. set (all := r :: inc) in *. clearbody all.
  assert (RS : forall e1 (k : unit -> M Eng13 unit), g_rx e1 = g_rx e -> (forall e2, g_rx e2 = g_rx e -> wp (k tt) (fun _ e' => within (waiting13 e') (contents13 all ++ waiting13 e)) e2) ->
     wp (bind (flight_resend13 E) k) (fun _ e' => within (waiting13 e') (contents13 all ++ waiting13 e)) e1).
  { intros e1 k H1 H. apply wp_bind. unfold wp at 1. pose proof (rx_flight_resend13 E e1) as K. cbv beta in K.
    destruct (flight_resend13 E e1) as [[[]|x|x] e2]; cbn [snd fst] in *; [apply H|apply Same..]; congruence. }
  destruct (first_hs r) as [h|].
  - unfold insert_handshake13. apply wp_bind, wp_get.
    assert (Tail : forall e1, g_rx e1 = g_rx e -> wp (
       if f_seq h <? g_peer_hs e then ret tt
       else if g_release e && negb (f_type h =? MT_KeyUpdate) then fail ERenegotiation
       else
        let! (found, i) := bsearch13 E (map (fun it => cmp_pair (hs_key it) (f_seq h, f_off h)) (g_rx e)) in
        if found then
        match nth_error (g_rx e) i with
        | Some (x :: _) =>
          if rec_handled x ||
           (match frag_whole x with Some b => negb b | None => false end &&
            match frag_whole r with Some b => b | None => false end)
          then modify (fun s => set_g_rx (set_nth i all (g_rx s))
                                (set_g_rrn (fold_left note_rrn all (g_rrn s)) s))
          else ret tt
        | _ => panic 430
        end
        else modify (fun s => set_g_rx (insert_at i all (g_rx s))
                            (set_g_rrn (fold_left note_rrn all (g_rrn s)) s))) (fun _ e' => within (waiting13 e') (contents13 all ++ waiting13 e)) e1).
    { intros e1 H1. destruct (_ <? _); [apply Same, H1|]. destruct (_ && _); [apply Same, H1|].
      apply wp_bind. unfold bsearch13, draw13. apply wp_bind. unfold wp at 1. cbn [fst snd]. apply wp_ret.
      destruct (e_bsearch _ _ _) as [found i]. destruct found.
      - destruct (nth_error _ _) as [[|x l]|]; [apply Same, H1| |apply Same, H1]. destruct (_ || _); [|apply Same, H1].
        apply wp_modify. apply (Set_ _ i). cbn. rewrite H1. reflexivity.
      - apply wp_modify. apply (Ins _ i). cbn. rewrite H1. reflexivity. }
    destruct (first_some _ _) as [d|]; [|apply wp_bind, wp_ret; exact (Tail e eq_refl)].
    unfold when. destruct (d <? g_peer_hs e); [|apply wp_bind, wp_ret; exact (Tail e eq_refl)].
    apply RS; [reflexivity|exact Tail].
  - unfold insert_non_handshake13. apply wp_bind, wp_get. apply wp_bind. unfold bsearch13, draw13. apply wp_bind. unfold wp at 1. cbn [fst snd]. apply wp_ret.
    destruct (e_bsearch _ _ _) as [found i]. destruct found; [apply Same; reflexivity|]. apply wp_modify. apply (Ins _ i). reflexivity.
Qed.

Definition cn_kept (a b : Eng13) : Prop := g_penc b = g_penc a /\ (g_cn a <> None -> g_cn b = g_cn a).
Lemma cn_kept_po : preorder cn_kept.
Proof.
  split; [intro; repeat split|]. intros a b c (A2 & A3) (B2 & B3). split; [congruence|].
  intros H. rewrite <- A3 by exact H. apply B3. rewrite A3 by exact H. exact H.
Qed.
Lemma cn_insert E inc : pres cn_kept (insert_incoming13 E inc).
Proof. pose proof cn_kept_po as PO. fr13 ltac:(first [exact PO | intros; repeat split; fail]). Qed.

Lemma parse_within E p e : g_penc e = true -> exists items, takes_app13 E e p items /\
  within (waiting13 (snd (eng13_parse_packet E p e))) (waiting13 e ++ items) /\ cn_kept e (snd (eng13_parse_packet E p e)).
Proof.
  intros Hp. unfold eng13_parse_packet, bind.
  assert (K : cnk e (snd (records_parse13 E p e))).
  { pose proof cnk_po as PO. assert (Q : pres cnk (records_parse13 E p)); [|apply Q].
    fr13 ltac:(first [exact PO | intros; repeat split; fail | intros ep sq s; unfold replay_update13; destruct (_ =? 2); repeat split
      | intros s; unfold cnk; destruct (g_cn s) eqn:?; cbn; repeat split; congruence]). }
  assert (None_ : forall e', cnk e e' -> exists items, takes_app13 E e p items /\ within (waiting13 e') (waiting13 e ++ items) /\ cn_kept e e').
  { intros e' (K1 & K2 & K3). exists []. split; [exists []; split; [apply sub_nil_l|constructor]|].
    split; [unfold waiting13; rewrite K1, app_nil_r; apply within_refl|split; assumption]. }
  destruct (records_parse13 E p e) as [[rs|x|x] e1] eqn:Hr; cbn [snd] in *; [|apply None_, K..].
  destruct rs as [|r rs]; [apply None_, K|].
  destruct (taken_items E p e _ e1 Hp Hr) as (_ & T). exists (contents13 (r :: rs)). split; [exact T|].
  pose proof (insert_within E (r :: rs) e1) as W. pose proof (cn_insert E (r :: rs) e1) as C. destruct K as (K1 & K2 & K3). split.
  - eapply within_trans; [exact W|]. apply within_perm. unfold waiting13 at 1. rewrite K1. apply Permutation_app_comm.
  - eapply cn_kept_po; [split; eassumption|exact C].
Qed.

(** ** Calls *)

Definition wkr (a b : Eng13) : Prop := wk (concat (g_rx b)) (concat (g_rx a)) /\ g_penc b = g_penc a /\ g_cn b = g_cn a.
Lemma wkr_po : preorder wkr.
Proof.
  split; [intro; repeat split; apply wk_refl|]. intros a b c (A1 & A2 & A3) (B1 & B2 & B3).
  split; [eapply wk_trans; eassumption|split; congruence].
Qed.
Ltac wkm := apply pres_modify; intros s0; unfold wkr; cbn [g_rx g_penc g_cn set_g_rx set_g_transcript set_g_ackdl set_g_hs_seq set_g_tx set_g_cn_rep set_g_peer_hs];
  split; [first [apply wk_refl | apply mark_run_wk | apply mark_first_wk | apply purge_wk]|split; reflexivity].
Lemma wkr_fin E : fin_frame13 E wkr.
Proof.
  pose proof wkr_po as PO.
  assert (P1 : forall a b w, pres wkr (next_handshake13_gen a b w)) by (intros; unfold next_handshake13_gen; presauto PO wkm).
  assert (P2 : forall cap, pres wkr (poll_app_data13 cap)) by (intros; unfold poll_app_data13; presauto PO wkm).
  constructor; fr13o ltac:(first [apply P1 | apply P2]) ltac:(first [exact PO | intros; split; [apply wk_refl|split; reflexivity]
    | intros; split; [apply purge_wk|split; reflexivity]]).
Qed.

Lemma quiet_call E k s r s' : match k with Poll _ => False | _ => True end -> end13_call E k s = (r, s') -> output_in r = [].
Proof.
  assert (N : forall S (m : M S unit) c, output_in (fst (no_output m c)) = []).
  { intros S m c. unfold no_output, bind. destruct (m c) as [[u|x|x] c1]; reflexivity. }
  intros Hk H. destruct s as [c|c]; cbn [end13_call] in H.
  - destruct (client13_call E k c) as [r1 c1] eqn:Hc. injection H as <- _.
    assert (K : r1 = fst (client13_call E k c)) by (rewrite Hc; reflexivity). rewrite K. destruct k; cbn [client13_call]; try contradiction; apply N.
  - destruct (server13_call E k c) as [r1 c1] eqn:Hc. injection H as <- _.
    assert (K : r1 = fst (server13_call E k c)) by (rewrite Hc; reflexivity). rewrite K. destruct k; cbn [server13_call]; try contradiction; apply N.
Qed.

Lemma pending_data e : g_release e = true -> app_data (eng13_pending e) = waiting13 e.
Proof.
  intros H. rewrite pending_parts, app_data_app. unfold app_part. rewrite H.
  assert (K : app_data (rest_part e) = []).
  { unfold rest_part. rewrite app_data_app. replace (app_data (map OPacket (g_tx e))) with (@nil bytes).
    - destruct (_ && _); reflexivity.
    - induction (g_tx e); [reflexivity|assumption]. }
  rewrite K, app_nil_r. unfold waiting13, contents13. induction (filter _ _) as [|x l IH]; [reflexivity|]. cbn. f_equal. exact IH.
Qed.
Lemma poll_data E cap s r s' : poll13_wf s -> up13 (end13_eng s) -> end13_call E (Poll cap) s = (r, s') ->
  app_data (output_in r) ++ waiting13 (end13_eng s') = waiting13 (end13_eng s).
Proof.
  intros [W1 W2] [U1 U2] H.
  assert (Rl : g_release (end13_eng s') = true) by exact (lf_end13_call E _ (release_mono E) _ _ _ _ H U2).
  rewrite poll13_unfold in H. destruct (end13_events s) as [|ev l] eqn:He.
  - pose proof (eng13_poll_pops cap (end13_now s) (end13_eng s) W1) as P. unfold wp in P.
    destruct (eng13_poll_output cap (end13_now s) (end13_eng s)) as [r0 e'] eqn:Hp. cbn [fst snd] in P. injection H as <- <-.
    rewrite eng13_set_eng in *. rewrite <- !pending_data by assumption.
    destruct (eng13_pending (end13_eng s)) as [|o rest] eqn:Hq.
    + destruct P as [-> ->]. cbn [output_in app_data flat_map app]. rewrite pending_settled, Hq. reflexivity.
    + destruct (out_size o <=? cap).
      * destruct P as [-> ->]. cbn [output_in]. rewrite <- app_data_app. reflexivity.
      * destruct P as [-> [-> | ->]]; cbn [output_in app_data flat_map app]; [rewrite pending_purged|rewrite pending_settled]; rewrite Hq; reflexivity.
  - assert (Hs : end13_eng s' = end13_eng s /\ app_data (output_in r) = []).
    { destruct ev; injection H as <- <-; (split; [destruct s; reflexivity|]).
      - destruct (end13_certs s); [reflexivity|]. destruct (_ <=? _); reflexivity.
      - reflexivity.
      - reflexivity. }
    destruct Hs as [-> ->]. reflexivity.
Qed.

Definition takes_call (E : Env) (e : Eng13) (k : Call) (items : list bytes) : Prop :=
  match k with Packet p => takes_app13 E e p items | _ => items = [] end.
Lemma data_call E k s r s' : fin13 s = true -> up13 (end13_eng s) -> poll13_wf s -> end13_call E k s = (r, s') ->
  exists items, takes_call E (end13_eng s) k items /\
    within (app_data (output_in r) ++ waiting13 (end13_eng s')) (waiting13 (end13_eng s) ++ items) /\
    fin13 s' = true /\ up13 (end13_eng s') /\ (g_cn (end13_eng s) <> None -> g_cn (end13_eng s') = g_cn (end13_eng s)).
Proof.
  intros F U W H. destruct (fin_call E _ (wkr_fin E) _ _ _ _ F H) as (F' & K1 & K2 & K3).
  pose proof (lf_end13_call E _ (up_mono E) _ _ _ _ H U) as U'. cbv beta in U'.
  assert (Q : match k with Poll _ => False | _ => True end -> app_data (output_in r) = []).
  { intros Hk. rewrite (quiet_call E k s r s' Hk H). reflexivity. }
  destruct k as [p|cap|now|d|]; cbn [parsed13] in K1, K2, K3.
  - rewrite Q by exact I. destruct (parse_within E p (end13_eng s) (proj1 U)) as (items & T1 & T2 & T3 & T4). exists items. split; [exact T1|].
    split; [|split; [exact F'|split; [exact U'|]]].
    + eapply within_trans; [|exact T2]. apply within_sub, contents_wk, K1.
    + rewrite K3. exact T4.
  - exists []. split; [reflexivity|]. split; [|split; [exact F'|split; [exact U'|intros _; exact K3]]].
    rewrite (poll_data E cap s r s' W U H), app_nil_r. apply within_refl.
  - rewrite Q by exact I. exists []. split; [reflexivity|]. split; [|split; [exact F'|split; [exact U'|intros _; exact K3]]].
    rewrite app_nil_r. apply within_sub, contents_wk, K1.
  - rewrite Q by exact I. exists []. split; [reflexivity|]. split; [|split; [exact F'|split; [exact U'|intros _; exact K3]]].
    rewrite app_nil_r. apply within_sub, contents_wk, K1.
  - rewrite Q by exact I. exists []. split; [reflexivity|]. split; [|split; [exact F'|split; [exact U'|intros _; exact K3]]].
    rewrite app_nil_r. apply within_sub, contents_wk, K1.
Qed.

(** ** Histories *)

(** [items]: what was taken from the datagrams given in [h], starting in [s]. *)
Inductive arrived13 (E : Env) (s : End13) : list (Call * Reply) -> list bytes -> Prop :=
| arrived13_nil : arrived13 E s [] []
| arrived13_snoc h items k r s1 more : arrived13 E s h items -> history13 E s h s1 ->
    takes_call E (end13_eng s1) k more -> arrived13 E s (h ++ [(k, r)]) (items ++ more).

Lemma reach13_trans E cfg cert key h s h2 s2 : reach13 E cfg cert key h s -> Forall (fun x => ~ panicked (snd x)) h ->
  history13 E s h2 s2 -> reach13 E cfg cert key (h ++ h2) s2.
Proof.
  intros (s0 & H0 & H) NP K. induction K as [|h2 s1 k r s' K IH NP2 Hc]; [rewrite app_nil_r; exists s0; auto|].
  destruct IH as (x & X1 & X2). exists x. split; [exact X1|]. rewrite app_assoc.
  eapply history13_snoc; [exact X2|apply Forall_app; split; assumption|exact Hc].
Qed.

Lemma history_data E s h2 s2 : fin13 s = true -> up13 (end13_eng s) ->
  (forall h' s', history13 E s h' s' -> Forall (fun x => ~ panicked (snd x)) h' -> poll13_wf s') -> history13 E s h2 s2 ->
  exists items, arrived13 E s h2 items /\
    within (app_data (outputs h2) ++ waiting13 (end13_eng s2)) (waiting13 (end13_eng s) ++ items) /\
    fin13 s2 = true /\ up13 (end13_eng s2) /\ (g_cn (end13_eng s) <> None -> g_cn (end13_eng s2) = g_cn (end13_eng s)).
Proof.
  intros F U W H. induction H as [|h s1 k r s' H IH NP Hc].
  - exists []. split; [constructor|]. split; [rewrite app_nil_r; apply within_refl|]. auto.
  - destruct IH as (items & A & B & F1 & U1 & C).
    destruct (data_call E k s1 r s' F1 U1 (W _ _ H NP) Hc) as (more & A2 & B2 & F2 & U2 & C2).
    exists (items ++ more). split; [eapply arrived13_snoc; eassumption|]. split; [|split; [exact F2|split; [exact U2|]]].
    + assert (Eo : outputs (h ++ [(k, r)]) = outputs h ++ output_in r).
      { unfold outputs. rewrite flat_map_app. cbn [flat_map snd]. rewrite app_nil_r. reflexivity. }
      rewrite Eo, app_data_app, <- app_assoc.
      eapply within_trans; [apply within_app; [apply within_refl|exact B2]|]. rewrite !app_assoc.
      apply within_app; [exact B|apply within_refl].
    + intros N. rewrite C2 by (rewrite C by exact N; exact N). apply C, N.
Qed.

(** ** The report of the close_notify *)

Definition reported13 (e : Eng13) : Prop := g_cn e <> None /\ g_cn_rep e = true.
Lemma reported_mono E : eng_frame13 E (fun a b => reported13 a -> reported13 b).
Proof.
  pose proof (preorder_inv reported13) as PO.
  frame13_all ltac:(first [exact PO | intros v s H; exact H | intros s H; exact H | intros s [H1 H2]; split; first [assumption|reflexivity]
    | intros v s Hn [H1 _]; contradiction | intros; assumption]).
Qed.
Lemma noted_mono E : eng_frame13 E (fun a b => g_cn a <> None -> g_cn b <> None).
Proof.
  pose proof (preorder_inv (fun e => g_cn e <> None)) as PO.
  frame13_all ltac:(first [exact PO | intros v s H; exact H | intros s H; exact H 
    | intros v s Hn H1; contradiction | intros; assumption]).
Qed.

Lemma call_close E k s s' : poll13_wf s -> end13_call E k s = (Ok (Some OCloseNotify), s') ->
  pending13 s = [OCloseNotify] /\ ~ reported13 (end13_eng s) /\ reported13 (end13_eng s').
Proof.
  intros W H. destruct (match k with Poll _ => true | _ => false end) eqn:Hk.
  2: { apply quiet_call in H; [discriminate|]. destruct k; try exact I. discriminate. }
  destruct k as [|cap| | |]; try discriminate. destruct W as [W1 W2]. pose proof (poll13_pops E s cap _ s' W1 W2 H) as P.
  assert (L : exists rest, pending13 s = OCloseNotify :: rest /\ pending13 s' = rest).
  { destruct (pending13 s) as [|o rest].
    - destruct P as (t & P & _). discriminate.
    - destruct (out_size o <=? cap); [|destruct o; try (destruct P as (P & _); discriminate); destruct P].
      destruct P as [[= <-] P]. eauto. }
  destruct L as (rest & L1 & L2). pose proof L1 as L3. unfold pending13 in L3. destruct (end13_events s) as [|ev l] eqn:He.
  2: { destruct ev; cbn [map app event_value] in L3; [|discriminate..]. destruct (end13_certs s); discriminate. }
  cbn [map app] in L3. rewrite pending_parts in L3.
  destruct (app_part (end13_eng s)) as [|x l]; [|discriminate]. cbn [map app] in L3. unfold rest_part in L3.
  destruct (g_tx (end13_eng s)) as [|x l]; [|discriminate]. cbn [map app] in L3.
  destruct (is_some (g_cn (end13_eng s)) && negb (g_cn_rep (end13_eng s))) eqn:B; [|discriminate].
  injection L3 as <-. apply andb_prop in B. destruct B as [B1 B2]. split; [exact L1|].
  assert (NS : g_cn (end13_eng s) <> None) by (destruct (g_cn (end13_eng s)); [discriminate|discriminate B1]).
  split; [intros [_ K]; rewrite K in B2; discriminate|].
  pose proof (lf_end13_call E _ (noted_mono E) _ _ _ _ H NS) as NS'. cbv beta in NS'.
  split; [exact NS'|]. unfold pending13 in L2. apply app_eq_nil in L2. destruct L2 as [_ L2]. rewrite pending_parts in L2.
  apply app_eq_nil in L2. destruct L2 as [_ L2]. unfold rest_part in L2. apply app_eq_nil in L2. destruct L2 as [_ L2].
  destruct (g_cn (end13_eng s')); [|elim NS'; reflexivity]. destruct (g_cn_rep (end13_eng s')); [reflexivity|discriminate].
Qed.

(** ** Where the close_notify comes from *)

Lemma cn_ack E d : pres (fun a b => g_cn b = g_cn a) (process_ack E d).
Proof.
  assert (PO : preorder (fun a b => g_cn b = g_cn a)) by (split; [reflexivity|intros; congruence]).
  fr13 ltac:(first [exact PO | intros; reflexivity]).
Qed.
Lemma classify_all_note E (P : Rec12 -> Prop) : forall rs e e' o ep n, g_penc e = true ->
  Forall (fun r => r_epoch r = 0 \/ P r) rs -> g_cn e = None ->
  classify_all13 E rs e = (o, e') -> g_cn e' = Some (ep, n) ->
  exists r, P r /\ r_ctype r = CT_ALERT /\ nth_error (r_frag r) 1 = Some 0 /\ r_epoch r = ep /\ r_seq r = n.
Proof.
  induction rs as [|r rs IH]; intros e e' o ep n Hp F Hn H Hs; cbn [classify_all13] in H; [injection H as _ <-; congruence|].
  inversion F as [|? ? F1 F2]; subst. unfold bind in H.
  pose proof (cnk_rec E r e) as (_ & Kp & _).
  assert (Fst : g_cn (snd (classify_record13 E r e)) = None \/
    exists x, P x /\ r_ctype x = CT_ALERT /\ nth_error (r_frag x) 1 = Some 0 /\ g_cn (snd (classify_record13 E r e)) = Some (r_epoch x, r_seq x)).
  { assert (Q : forall z, z = snd (classify_record13 E r e) -> g_cn z = None \/
      exists x, P x /\ r_ctype x = CT_ALERT /\ nth_error (r_frag x) 1 = Some 0 /\ g_cn z = Some (r_epoch x, r_seq x)); [|exact (Q _ eq_refl)].
    intros z. unfold classify_record13, bind at 1, get. cbv beta iota. rewrite Hn, Hp, andb_true_r. cbv iota.
    destruct ((r_epoch r =? 0) && ((r_ctype r =? CT_ACK) || (r_ctype r =? CT_ALERT))) eqn:B; [intros ->; left; exact Hn|]. destruct (r_ctype r =? CT_ACK) eqn:C1.
    { intros ->. left. unfold bind. pose proof (cn_ack E (r_frag r) e) as Ka. cbv beta in Ka. destruct (process_ack E (r_frag r) e) as [[u|x|x] e1]; cbn [snd] in *; cbn; congruence. }
    destruct (r_ctype r =? CT_ALERT) eqn:C2; [|intros ->; left; destruct (r_ctype r =? CT_CCS); exact Hn].
    destruct (nth_error (r_frag r) 1) as [d|] eqn:Hd; [|intros ->; left; exact Hn]. destruct (d =? 0) eqn:D0; [|intros ->; left; destruct (d =? 90); exact Hn].
    intros ->. right. exists r. apply N.eqb_eq in C2, D0. subst d.
    destruct F1 as [F1|F1]; [exfalso; rewrite F1 in B; cbn in B; congruence|].
    split; [exact F1|]. split; [exact C2|]. split; [exact Hd|]. unfold bind, modify, ret. cbn [snd]. rewrite Hn. reflexivity. }
  destruct (classify_record13 E r e) as [[a|x|x] e1] eqn:Hc; cbn [snd] in *.
  2, 3: injection H as _ <-; destruct Fst as [Fst|(x0 & X1 & X2 & X3 & X4)]; [congruence|exists x0; rewrite X4 in Hs; injection Hs as <- <-; auto].
  assert (He : exists o', classify_all13 E rs e1 = (o', e')).
  { destruct (classify_all13 E rs e1) as [[b|x|x] e2]; injection H as _ <-; eauto. }
  destruct He as (o' & He). destruct Fst as [Fst|(x & X1 & X2 & X3 & X4)].
  - eapply IH; [|exact F2|exact Fst|exact He|exact Hs]. congruence.
  - exists x. assert (K : g_cn e' = g_cn e1).
    { pose proof (classify_all_kept E rs e1) as W. unfold wp in W. rewrite He in W. cbn [snd fst] in W. apply W. congruence. }
    rewrite K, X4 in Hs. injection Hs as <- <-. auto.
Qed.
Lemma parse_note E p e ep n : g_penc e = true -> g_cn e = None -> g_cn (snd (eng13_parse_packet E p e)) = Some (ep, n) ->
  exists lvl rest, opened13 E e p CT_ALERT ep n (lvl :: 0 :: rest).
Proof.
  intros Hp Hn Hs.
  assert (Hr : g_cn (snd (records_parse13 E p e)) = Some (ep, n)).
  { unfold eng13_parse_packet, bind in Hs. destruct (records_parse13 E p e) as [[rs|x|x] e1]; cbn [snd] in *; [|exact Hs..].
    destruct rs as [|r rs]; [exact Hs|]. 
    assert (K : g_cn (snd (insert_incoming13 E (r :: rs) e1)) = g_cn e1); [|congruence].
    assert (PO : preorder (fun a b => g_cn b = g_cn a)) by (split; [reflexivity|intros; congruence]).
    assert (Q : pres (fun a b => g_cn b = g_cn a) (insert_incoming13 E (r :: rs))); [|apply Q]. fr13 ltac:(first [exact PO | intros; reflexivity]). }
  unfold records_parse13, bind in Hr.
  pose proof (parse_loop_opened E p (length p) 16 p [] e Hp eq_refl) as W. unfold wp in W.
  assert (K : cnk e (snd (parse_loop13 E (length p) 16 p e)) /\ g_cn (snd (parse_loop13 E (length p) 16 p e)) = g_cn e).
  { pose proof cnk_po as PO. assert (PO2 : preorder (fun a b => g_cn b = g_cn a)) by (split; [reflexivity|intros; congruence]). split.
    - assert (Q : pres cnk (parse_loop13 E (length p) 16 p)); [|apply Q].
      fr13 ltac:(first [exact PO | intros; repeat split; fail | intros ep' sq s; unfold replay_update13; destruct (_ =? 2); repeat split]).
    - assert (Q : pres (fun a b => g_cn b = g_cn a) (parse_loop13 E (length p) 16 p)); [|apply Q].
      fr13 ltac:(first [exact PO2 | intros; reflexivity | intros ep' sq s; unfold replay_update13; destruct (_ =? 2); reflexivity]). }
  destruct (parse_loop13 E (length p) 16 p e) as [[rs|x|x] e1]; cbn [fst snd] in *; [|destruct K as [_ K]; congruence..].
  destruct K as ((_ & K1 & _) & K2). destruct (classify_all13 E rs e1) as [o e2] eqn:Hc. cbn [snd] in Hr.
  destruct (classify_all_note E (fun r => opened13 E e p (r_ctype r) (r_epoch r) (r_seq r) (r_frag r)) rs e1 e2 o ep n) as (r & R1 & R2 & R3 & R4 & R5); try assumption; try congruence.
  rewrite R2, R4, R5 in R1. destruct (r_frag r) as [|lvl [|d rest]]; try discriminate. injection R3 as ->. eauto.
Qed.
Lemma call_note E k s r s' ep n : fin13 s = true -> up13 (end13_eng s) -> end13_call E k s = (r, s') ->
  g_cn (end13_eng s) = None -> g_cn (end13_eng s') = Some (ep, n) ->
  exists p lvl rest, k = Packet p /\ opened13 E (end13_eng s) p CT_ALERT ep n (lvl :: 0 :: rest).
Proof.
  intros F U H Hn Hs. destruct (fin_call E _ (wkr_fin E) _ _ _ _ F H) as (_ & _ & _ & K3).
  destruct k as [p|cap|now|d|]; cbn [parsed13] in K3; try congruence.
  rewrite Hs in K3. symmetry in K3. destruct (parse_note E p (end13_eng s) ep n (proj1 U) Hn K3) as (lvl & rest & O). exists p, lvl, rest. auto.
Qed.
Lemma parse_one_close E raw e r e' lvl rest : g_penc e = true -> rec_bound13 raw = BRec (length raw) ->
  rec_parse13 E raw e = (Ok (Some r), e') -> r_ctype r = CT_ALERT -> r_epoch r <> 0 -> r_frag r = lvl :: 0 :: rest -> g_cn e = None ->
  eng13_parse_packet E raw e = (Ok tt, set_g_cn (Some (r_epoch r, r_seq r)) e').
Proof.
  intros P Hb H T Ep Hf Hc. unfold eng13_parse_packet, records_parse13, bind at 1, bind at 1.
  rewrite (parse_one E raw e r e' (bound_nil _ _ Hb) Hb H). cbn [classify_all13]. unfold bind at 1, classify_record13, bind at 1, get.
  destruct (rec_parse_keeps E _ _ _ _ H) as (K1 & K2 & _). rewrite K1, K2, Hc.
  rewrite (proj2 (N.eqb_neq _ _) Ep). cbn [andb]. rewrite T, Hf. cbn [nth_error].
  change (CT_ALERT =? CT_ACK) with false. change (CT_ALERT =? CT_ALERT) with true. cbv iota. cbn [N.eqb].
  unfold bind, modify, ret. rewrite K1, Hc. reflexivity.
Qed.
