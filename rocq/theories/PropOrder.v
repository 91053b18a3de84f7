(** C11: handshake messages are consumed in order, complete and once. *)
From Verif Require Import Prelude PreludeFacts Types Codec Codec12 Codec13 Env Config Context12 Monad MonadFacts
  Record12 Record13 Timer Window Engine12 Engine12Frame Engine13 Client12 Server12 Client13 Server13 History12 History12Facts History13
  View12 Rx12Proofs Frame13 Lift13 Rx13Proofs Toy Conn12 Conn13 Lift12 PropReasm PropNonce13.

(** ** Specification *)

(** All bytes of the body [b] of message [n] of type [t] are in the fragments [fs], at
    their offsets, and one of them announces this length. *)
Definition all_bytes_present (fs : list Frag12) (t n : N) (b : bytes) : Prop :=
  (exists f, In f fs /\ f_type f = t /\ f_seq f = n /\ f_length f = len b /\ f_handled f = false) /\
  forall i x, nth_error b i = Some x ->
    exists f, In f fs /\ f_type f = t /\ f_seq f = n /\ f_off f <= N.of_nat i /\
      nth_error (f_data f) (i - N.to_nat (f_off f)) = Some x.

(** ** Completeness *)
Definition frag_wf (f : Frag12) : Prop := f_flen f = len (f_data f).
Lemma window_prefix rs n x y : skip_while f_handled (flat_map r_hs (firstn n (skip_while rec_handled rs))) = x :: y ->
  exists z, skip_while f_handled (flat_map r_hs rs) = x :: y ++ z.
Proof.
  induction rs as [|r rs IH]; cbn [skip_while flat_map]; [destruct n; discriminate|].
  destruct (rec_handled r) eqn:Hr.
  - intros H1. rewrite skip_while_app_true; [auto|].
    unfold rec_handled in Hr. destruct (r_hs r); [reflexivity|exact Hr].
  - intros H1. change (r_hs r ++ flat_map r_hs rs) with (flat_map r_hs (r :: rs)).
    rewrite <- (firstn_skipn n (r :: rs)), flat_map_app. revert H1. generalize (flat_map r_hs (firstn n (r :: rs))) as a.
    induction a as [|a0 a IHa]; cbn [skip_while app]; [discriminate|]. destruct (f_handled a0); [exact IHa|].
    intros [= -> ->]. eexists. reflexivity.
Qed.
Lemma skip_while_in {A} (p : A -> bool) l x : In x (skip_while p l) -> In x l.
Proof. induction l as [|a l IH]; cbn [skip_while]; [auto|]. destruct (p a); [right; auto|auto]. Qed.
Lemma skip_while_hd {A} (p : A -> bool) l x y : skip_while p l = x :: y -> p x = false.
Proof. induction l as [|a l IH]; cbn [skip_while]; [discriminate|]. destruct (p a) eqn:H; [exact IH|congruence]. Qed.
Lemma take_while_prefix {A} (p : A -> bool) l : exists z, l = take_while p l ++ z.
Proof. induction l as [|a l [z IH]]; cbn [take_while]; [exists []; reflexivity|]. destruct (p a); [exists z; cbn; congruence|exists (a :: l); reflexivity]. Qed.
Lemma take_while_all {A} (p : A -> bool) l : Forall (fun x => p x = true) (take_while p l).
Proof. induction l as [|a l IH]; cbn [take_while]; [constructor|]. destruct (p a) eqn:H; constructor; assumption. Qed.

Definition placed (fs : list Frag12) (t n : N) (b : bytes) : Prop := forall i x, nth_error b i = Some x ->
  exists f, In f fs /\ f_type f = t /\ f_seq f = n /\ f_off f <= N.of_nat i /\ nth_error (f_data f) (i - N.to_nat (f_off f)) = Some x.
Lemma nth_error_skipn {A} k : forall (l : list A) i, nth_error (skipn k l) i = nth_error l (k + i).
Proof. induction k as [|k IH]; intros [|a l] i; cbn; try reflexivity; [destruct i; reflexivity|apply IH]. Qed.
Lemma placed_snoc fs t n b f skip : placed fs t n b -> In f fs -> f_type f = t -> f_seq f = n -> f_off f <= len b ->
  skip = N.to_nat (len b - f_off f) -> placed fs t n (b ++ skipn skip (f_data f)).
Proof.
  intros P Hf Ht Hn Ho Hs i x Hx. destruct (Nat.lt_ge_cases i (length b)) as [Hi|Hi].
  - apply P. rewrite nth_error_app1 in Hx by exact Hi. exact Hx.
  - rewrite nth_error_app2, nth_error_skipn in Hx by exact Hi. exists f. split; [exact Hf|]. split; [exact Ht|]. split; [exact Hn|]. split; [unfold len in Ho; lia|].
    rewrite <- Hx. f_equal. subst skip. unfold len in *. lia.
Qed.
Lemma prefix_cases {A} (w x run y : list A) h : w ++ x = (h :: run) ++ y -> w = [] \/ exists w', w = h :: w' /\ w' ++ x = run ++ y.
Proof. destruct w as [|a w]; [auto|]. cbn. intros [= -> H]. right. eexists. split; [reflexivity|exact H]. Qed.

Lemma complete_placed fs t n total : forall run w x y acc,
  Forall (fun f => In f fs /\ f_type f = t /\ f_seq f = n /\ frag_wf f) run ->
  w ++ x = run ++ y -> frags_complete n total (len acc) w = true -> placed fs t n acc ->
  len (acc ++ flat_map f_data run) = total -> placed fs t n (acc ++ flat_map f_data run).
Proof.
  induction run as [|h run IH]; intros w x y acc HF Hw Hc P Hl; [cbn; rewrite app_nil_r; exact P|].
  inversion HF as [|? ? (F1 & F2 & F3 & F4) HF']; subst. destruct (prefix_cases _ _ _ _ _ Hw) as [->|(w' & -> & Hw')]; [discriminate|].
  cbn [frags_complete] in Hc. rewrite N.eqb_refl in Hc. cbn [negb] in Hc.
  destruct (f_off h =? len acc) eqn:Ho; cbn [negb] in Hc; [|discriminate]. apply N.eqb_eq in Ho.
  assert (P' : placed fs (f_type h) (f_seq h) (acc ++ f_data h)).
  { change (f_data h) with (skipn 0 (f_data h)). apply placed_snoc; auto; rewrite Ho; [apply N.le_refl|]. rewrite N.sub_diag. reflexivity. }
  cbn [flat_map] in *. rewrite app_assoc in *. unfold frag_wf in F4. rewrite F4, Ho, <- len_app in Hc.
  destruct (len (acc ++ f_data h) =? _) eqn:He.
  - apply N.eqb_eq in He. rewrite (len_app _ (acc ++ f_data h)) in He. assert (len (flat_map f_data run) = 0) as K by lia.
    destruct (flat_map f_data run) eqn:E0; [|unfold len in K; cbn in K; lia]. rewrite app_nil_r. exact P'.
  - eapply IH; eauto.
Qed.
Lemma scan_placed fs t n total : forall run w x y acc,
  Forall (fun f => In f fs /\ f_type f = t /\ f_seq f = n /\ frag_wf f) run ->
  w ++ x = run ++ y -> frags_scan n total (len acc) w = ScanComplete -> placed fs t n acc ->
  len (acc ++ assemble13 (len acc) run) = total -> placed fs t n (acc ++ assemble13 (len acc) run).
Proof.
  induction run as [|h run IH]; intros w x y acc HF Hw Hc P Hl; [cbn; rewrite app_nil_r; exact P|].
  inversion HF as [|? ? (F1 & F2 & F3 & F4) HF']; subst. destruct (prefix_cases _ _ _ _ _ Hw) as [->|(w' & -> & Hw')]; [discriminate|].
  cbn [frags_scan] in Hc. rewrite N.eqb_refl in Hc. cbn [negb] in Hc.
  destruct (len acc <? f_off h) eqn:Ho; [discriminate|]. apply N.ltb_ge in Ho.
  cbn [assemble13] in *. set (skip := len acc - f_off h) in *.
  set (new := if skip <? f_flen h then skipn (N.to_nat skip) (f_data h) else []) in *.
  unfold frag_wf in F4.
  assert (P' : placed fs (f_type h) (f_seq h) (acc ++ new)).
  { unfold new. destruct (skip <? f_flen h); [|rewrite app_nil_r; exact P]. apply placed_snoc; auto. }
  assert (L' : len (acc ++ new) = (if len acc <? f_off h + f_flen h then f_off h + f_flen h else len acc)).
  { rewrite len_app. unfold new. destruct (skip <? f_flen h) eqn:Hk; unfold len in *.
    - rewrite skipn_length. replace (N.of_nat (length acc) <? f_off h + f_flen h) with true by lia. lia.
    - cbn [length]. replace (N.of_nat (length acc) <? f_off h + f_flen h) with false by lia. lia. }
  rewrite <- L' in *. rewrite app_assoc in *.
  destruct (len (acc ++ new) =? _) eqn:He.
  - apply N.eqb_eq in He. rewrite (len_app _ (acc ++ new)) in He. assert (len (assemble13 (len (acc ++ new)) run) = 0) as K by lia.
    destruct (assemble13 (len (acc ++ new)) run) eqn:E0; [|unfold len in K; cbn in K; lia].
    rewrite app_nil_r. exact P'.
  - eapply IH; eauto.
Qed.

Lemma run_facts (q : list (list Rec12)) w z first more :
  Forall frag_wf (all_frags q) -> skip_while f_handled (all_frags q) = first :: more -> w ++ z = first :: more ->
  let run := first :: take_while (same_msg first) more in
  Forall (fun f => In f (all_frags q) /\ f_type f = f_type first /\ f_seq f = f_seq first /\ frag_wf f) run /\
  (exists y, w ++ z = run ++ y) /\ f_handled first = false.
Proof.
  intros W Hs Hw run. destruct (take_while_prefix (same_msg first) more) as [y Hy].
  split; [|split; [exists y; unfold run; cbn; rewrite <- Hy; exact Hw|eapply skip_while_hd; exact Hs]].
  rewrite Forall_forall in W. apply Forall_forall. intros f Hf.
  assert (Hin : In f (all_frags q)).
  { apply (skip_while_in f_handled). rewrite Hs. destruct Hf as [->|Hf]; [left; reflexivity|]. right. rewrite Hy. apply in_or_app. left. exact Hf. }
  split; [exact Hin|]. split; [|split; [|apply W; exact Hin]].
  - destruct Hf as [->|Hf]; [reflexivity|]. pose proof (take_while_all (same_msg first) more) as K. rewrite Forall_forall in K. apply K in Hf. unfold same_msg in Hf. lia.
  - destruct Hf as [->|Hf]; [reflexivity|]. pose proof (take_while_all (same_msg first) more) as K. rewrite Forall_forall in K. apply K in Hf. unfold same_msg in Hf. lia.
Qed.

(** Taking a message from an engine whose queued fragments are well formed. *)
Lemma next12_taken s t m s' : Forall frag_wf (all_frags (en_rx s)) -> next_handshake t s = (Ok (Some m), s') ->
  m_type m = t /\ m_seq m = en_peer_hs s /\ en_peer_hs s' = u16 (en_peer_hs s + 1) /\
  all_bytes_present (all_frags (en_rx s)) t (m_seq m) (m_raw m).
Proof.
  intros W Hn. unfold next_handshake, bind at 1, get in Hn. cbv beta iota in Hn. unfold has_complete_handshake in Hn.
  destruct (skip_while f_handled (flat_map r_hs (firstn 50 (skip_while rec_handled (concat (en_rx s)))))) as [|first rest] eqn:Hhs; [discriminate|].
  destruct (window_prefix _ _ _ _ Hhs) as (z & Hz). change (flat_map r_hs (concat (en_rx s))) with (all_frags (en_rx s)) in Hz.
  destruct (f_seq first =? en_peer_hs s) eqn:C1; cbn [negb] in Hn; [|discriminate].
  destruct (f_type first =? t) eqn:C2; cbn [negb] in Hn; [|discriminate]. apply N.eqb_eq in C1, C2.
  destruct (frags_complete (f_seq first) (f_length first) 0 (first :: rest)) eqn:C3; cbn [negb] in Hn; [|discriminate].
  rewrite Hz in Hn. destruct (run_facts _ (first :: rest) z first (rest ++ z) W Hz eq_refl) as (R1 & (y & R2) & R3).
  set (run := first :: take_while (same_msg first) (rest ++ z)) in *.
  destruct (Nat.ltb 50 (length run)); [discriminate|]. destruct (len (flat_map f_data run) =? f_length first) eqn:C4; cbn [negb] in Hn; [|discriminate].
  apply N.eqb_eq in C4. destruct (p_body12 (f_type first) (en_suite s) (flat_map f_data run)) as [[body rst]|]; [|discriminate].
  unfold bind, modify in Hn. cbv beta iota in Hn. destruct (negb (is_nil rst) && rejects_trailing12 (f_type first)); [discriminate|].
  unfold ret in Hn. injection Hn as <- <-. cbn [m_type m_seq m_raw en_peer_hs set_en_peer_hs]. rewrite C1 in *. subst t.
  split; [reflexivity|]. split; [reflexivity|]. split; [reflexivity|]. split.
  - exists first. inversion R1 as [|? ? (A1 & A2 & A3 & A4) _]; subst. repeat split; auto.
  - apply (complete_placed (all_frags (en_rx s)) (f_type first) (en_peer_hs s) (f_length first) run (first :: rest) z y []); auto.
    intros i x Hx. destruct i; discriminate.
Qed.
Lemma next13_taken s u w t m s' : Forall frag_wf (all_frags (g_rx s)) -> next_handshake13_gen u w t s = (Ok (Some m), s') ->
  n_type m = t /\ n_seq m = g_peer_hs s /\ all_bytes_present (all_frags (g_rx s)) t (n_seq m) (n_raw m).
Proof.
  intros W Hn. unfold next_handshake13_gen, bind at 1, get in Hn. cbv beta iota in Hn. unfold has_complete13, pending_frags in Hn.
  destruct (skip_while f_handled (flat_map r_hs (firstn 50 (skip_while rec_handled (concat (g_rx s)))))) as [|first rest] eqn:Hhs; [discriminate|].
  destruct (window_prefix _ _ _ _ Hhs) as (z & Hz). change (flat_map r_hs (concat (g_rx s))) with (all_frags (g_rx s)) in Hz.
  destruct (f_seq first =? g_peer_hs s) eqn:C1; cbn [negb] in Hn; [|discriminate].
  destruct (f_type first =? t) eqn:C2; cbn [negb] in Hn; [|discriminate]. apply N.eqb_eq in C1, C2.
  destruct (frags_scan (f_seq first) (f_length first) 0 (first :: rest)) eqn:C3; cbn [negb] in Hn; try discriminate.
  rewrite Hz in Hn. destruct (run_facts _ (first :: rest) z first (rest ++ z) W Hz eq_refl) as (R1 & (y & R2) & R3).
  assert (A : assemble_run13 (first :: take_while (same_msg first) (rest ++ z)) = assemble13 0 (first :: take_while (same_msg first) (rest ++ z))).
  { cbn [frags_scan] in C3. rewrite N.eqb_refl in C3. cbn [negb] in C3. destruct (0 <? f_off first) eqn:Ho; [discriminate|].
    inversion R1 as [|? ? (A1 & A2 & A3 & A4) _]; subst. unfold frag_wf in A4. cbn [assemble_run13 assemble13].
    replace (f_off first) with 0 by lia. rewrite A4. cbn [N.sub N.to_nat skipn N.add]. destruct (f_data first) as [|b0 l0]; [reflexivity|].
    replace (0 <? len (b0 :: l0)) with true by (unfold len; cbn [length]; lia). reflexivity. }
  rewrite A in Hn. set (run := first :: take_while (same_msg first) (rest ++ z)) in *.
  destruct (Nat.ltb 50 (length run)); [discriminate|]. destruct (len (assemble13 0 run) =? f_length first) eqn:C4; cbn [negb] in Hn; [|discriminate].
  apply N.eqb_eq in C4. destruct (p_body13 u (f_type first) (g_suite s) (assemble13 0 run)) as [[body rst]|]; [|discriminate].
  unfold bind, modify, when in Hn. cbv beta iota in Hn. destruct (negb (is_nil rst) && mt13_known (f_type first)); [discriminate|].
  assert (M : m = mkMsg13 (f_type first) (f_seq first) body (assemble13 0 run)) by (destruct w; unfold ret in Hn; congruence).
  clear Hn. subst m. cbn [n_type n_seq n_raw]. rewrite C1 in *. subst t.
  split; [reflexivity|]. split; [reflexivity|]. split.
  - exists first. inversion R1 as [|? ? (A1 & A2 & A3 & A4) _]; subst. repeat split; auto.
  - apply (scan_placed (all_frags (g_rx s)) (f_type first) (g_peer_hs s) (f_length first) run (first :: rest) z y []); auto.
    intros i x Hx. destruct i; discriminate.
Qed.

(** ** Queued fragments are well formed *)
Definition rec_wf (r : Rec12) : Prop := Forall frag_wf (r_hs r).
Lemma take_len n (l d r : bytes) : take n l = Some (d, r) -> length d = n.
Proof. unfold take. destruct (Nat.leb n (length l)) eqn:H; [|discriminate]. intros [= <- <-]. apply Nat.leb_le in H. rewrite firstn_length. lia. Qed.
Lemma p_frag_wf l f r : p_frag12 l = Some (f, r) -> frag_wf f.
Proof.
  unfold p_frag12. destruct (p_u8 l) as [[? ?]|]; [|discriminate]. destruct (p_u24 _) as [[? ?]|]; [|discriminate].
  destruct (p_u16 _) as [[? ?]|]; [|discriminate]. destruct (p_u24 _) as [[? ?]|]; [|discriminate].
  destruct (p_u24 _) as [[fl ?]|]; [|discriminate]. destruct (take _ _) as [[d ?]|] eqn:H; [|discriminate].
  intros [= <- _]. unfold frag_wf. cbn [f_flen f_data]. apply take_len in H. unfold len. lia.
Qed.
Lemma p_frags_wf n : forall l, Forall frag_wf (p_frags12 n l).
Proof.
  induction n as [|n IH]; intros l; cbn [p_frags12]; [constructor|]. destruct l; [constructor|].
  destruct (p_frag12 (n0 :: l)) as [[f r]|] eqn:H; [|constructor]. constructor; [eapply p_frag_wf; exact H|apply IH].
Qed.
Lemma rec_wf_handled r : rec_wf r -> rec_wf (set_r_handled true r).
Proof. intro H; exact H. Qed.
Lemma mark_frags_wf l : forall st, Forall frag_wf l -> Forall frag_wf (fst (map_acc mark_frag st l)).
Proof.
  induction l as [|f l IH]; intros st H; cbn [map_acc]; [constructor|]. inversion H; subst.
  destruct (mark_frag st f) as [f' st'] eqn:Hm. specialize (IH st'). destruct (map_acc mark_frag st' l) as [l' st'']. cbn [fst] in *.
  constructor; [|auto]. unfold mark_frag in Hm. destruct st as [|t q|]; [destruct (f_handled f)|destruct (_ && _)|]; injection Hm as <- <-; assumption.
Qed.
Lemma rec_wf_frags r st : rec_wf r -> rec_wf (fst (mark_rec_frags st r)).
Proof.
  unfold rec_wf, mark_rec_frags. intros H. pose proof (mark_frags_wf (r_hs r) st H) as K.
  destruct (map_acc mark_frag st (r_hs r)). exact K.
Qed.
Lemma rec_wf_plain r : rec_wf r -> rec_wf (mark_plain_hs r).
Proof. unfold rec_wf, mark_plain_hs. intros H. destruct (_ && _); [|exact H]. destruct (r_hs r) as [|a l] eqn:Hr; [cbn; rewrite Hr; constructor|]. cbn [r_hs set_r_hs].
  change (Forall frag_wf (map (set_f_handled true) (a :: l))). apply Forall_map. eapply Forall_impl; [|exact H]. intros f Hf. exact Hf. Qed.
Lemma rec_wf_parsed k b r : p_parsed12 k b = Some r -> rec_wf r.
Proof.
  unfold p_parsed12. destruct (p_rec12 k b) as [[[[[[[? ?] ?] ?] ?] ?] ?]|]; [|discriminate]. intros H. injection H as <-.
  unfold rec_wf. cbn [r_hs]. destruct (_ =? _); [exact (p_frags_wf 8 _)|constructor].
Qed.
Lemma rec_wf13 ct ep sq n f b : rec_wf (rec13_of ct ep sq n f b).
Proof. unfold rec_wf, rec13_of. cbn [r_hs]. destruct (_ =? _); [exact (p_frags_wf 8 _)|constructor]. Qed.
Lemma wf_concat q : Forall (Forall rec_wf) q -> Forall frag_wf (all_frags q).
Proof.
  intros H. unfold all_frags. apply Forall_forall. intros f Hf. apply in_flat_map in Hf. destruct Hf as (r & Hr & Hf).
  apply in_concat in Hr. destruct Hr as (l & Hl & Hr). rewrite Forall_forall in H. specialize (H l Hl). rewrite Forall_forall in H. specialize (H r Hr).
  unfold rec_wf in H. rewrite Forall_forall in H. auto.
Qed.
(** ** C11 *)

(** The engine states inside a call on the endpoint [s]: datagrams are parsed, messages
    are taken, and other things happen that leave the receive queue alone. *)
Inductive during12 (E : Env) (s : End12) : Eng12 -> Prop :=
| during12_start : during12 E s (end_eng s)
| during12_parse p e : during12 E s e -> during12 E s (snd (eng12_parse_packet E p e))
| during12_take t e : during12 E s e -> during12 E s (snd (next_handshake t e))
| during12_other e e' : during12 E s e -> en_rx e' = en_rx e -> during12 E s e'.
Inductive during13 (E : Env) (s : End13) : Eng13 -> Prop :=
| during13_start : during13 E s (end13_eng s)
| during13_parse p e : during13 E s e -> during13 E s (snd (eng13_parse_packet E p e))
| during13_take u w t e : during13 E s e -> during13 E s (snd (next_handshake13_gen u w t e))
| during13_other e e' : during13 E s e -> g_rx e' = g_rx e -> during13 E s e'.
Lemma during12_wf E cfg auth h s e : reach12 E cfg auth h s -> during12 E s e -> Forall (Forall rec_wf) (en_rx e).
Proof.
  intros H. induction 1 as [|p e D IH|t e D IH|e e' D IH Hr].
  - exact (rx_invariant E rec_wf rec_wf_handled rec_wf_frags rec_wf_plain rec_wf_parsed cfg auth h s H).
  - exact (rx_parse E rec_wf rec_wf_plain rec_wf_parsed p e IH).
  - exact (ef_next_handshake _ _ (rx_frame E rec_wf rec_wf_handled rec_wf_frags rec_wf_plain rec_wf_parsed) t e IH).
  - rewrite Hr. exact IH.
Qed.
Lemma rec_parse_wf13 E raw e : wp (rec_parse13 E raw) (fun o _ => match o with Ok (Some r) => rec_wf r | _ => True end) e.
Proof.
  unfold rec_parse13. cbv zeta. apply wp_bind, wp_get, wp_bind.
  match goal with |- wp ?m _ _ => unfold wp at 1; destruct (m e) as [[buf|?|?] e1] end; cbn [fst snd]; try exact I.
  destruct (p_parsed13 buf) as [[r he]|] eqn:Hp; [|apply wp_ret; exact I].
  assert (rec_wf r) as Hr.
  { unfold p_parsed13 in Hp. destruct (p_rec13 buf) as [[hh ?]|]; [|discriminate]. assert (K : r = rec13_of (d_ctype hh) (d_epoch hh) (d_seq hh) (d_length hh) (d_frag hh) buf) by congruence. rewrite K. apply rec_wf13. }
  destruct (_ || _); [apply wp_ret; exact Hr|]. destruct (negb _); [apply wp_ret; exact I|]. apply wp_bind.
  match goal with |- wp ?m _ _ => unfold wp at 1; destruct (m e1) as [[i|?|?] e2] end; cbn [fst snd]; try exact I.
  destruct (Nat.ltb _ _); [apply wp_ret; exact I|]. destruct (recv_keys13 _ _); [|apply wp_ret; exact I].
  destruct (e_open _ _ _ _ _ _) as [pt|]; [|apply wp_ret; exact I]. apply wp_bind, wp_modify.
  destruct (inner_type pt) as [[t c]|]; apply wp_ret; [apply rec_wf13|exact I].
Qed.
Lemma during13_wf E cfg cert key h s e : reach13 E cfg cert key h s -> during13 E s e -> Forall (Forall rec_wf) (g_rx e).
Proof.
  intros H. assert (PP : forall raw s, rec_bound13 raw = BRec (length raw) ->
    wp (rec_parse13 E raw) (fun o _ => match o with Ok (Some r) => rec_wf r | _ => True end) s) by (intros; apply rec_parse_wf13).
  pose proof (rx13_frame E rec_wf rec_wf_handled rec_wf_frags PP) as F. induction 1 as [|p e D IH|u w t e D IH|e e' D IH Hr].
  - exact (rx13_invariant E rec_wf rec_wf_handled rec_wf_frags PP cfg cert key h s H).
  - exact (unPres _ _ (xf_parse _ _ F p) e IH).
  - exact (unPres _ _ (xf_next _ _ F u w t) e IH).
  - rewrite Hr. exact IH.
Qed.

(** Inside every call of every history: the message the protocol takes has the number
    expected next, all its bytes are there, and the number after it is expected from then
    on. *)
Theorem C11_taken12 : forall E cfg auth h s e t m e',
  reach12 E cfg auth h s -> during12 E s e -> next_handshake t e = (Ok (Some m), e') ->
  m_type m = t /\ m_seq m = en_peer_hs e /\ en_peer_hs e' = u16 (m_seq m + 1) /\
  all_bytes_present (all_frags (en_rx e)) t (m_seq m) (m_raw m).
Proof.
  intros E cfg auth h s e t m e' H D Hn. destruct (next12_taken _ _ _ _ (wf_concat _ (during12_wf _ _ _ _ _ _ H D)) Hn) as (A & B & C & F).
  rewrite <- B in C. auto.
Qed.
Print Assumptions C11_taken12.
(** In DTLS 1.3 the number advances with a separate step after the message was processed. *)
Theorem C11_taken13_partial : forall E cfg cert key h s e u w t m e',
  reach13 E cfg cert key h s -> during13 E s e -> next_handshake13_gen u w t e = (Ok (Some m), e') ->
  n_type m = t /\ n_seq m = g_peer_hs e /\ all_bytes_present (all_frags (g_rx e)) t (n_seq m) (n_raw m).
Proof. intros E cfg cert key h s e u w t m e' H D Hn. exact (next13_taken _ _ _ _ _ _ (wf_concat _ (during13_wf _ _ _ _ _ _ _ H D)) Hn). Qed.
Print Assumptions C11_taken13_partial.

(** A server receives a ClientHello and takes it. *)
Definition first_hello12 : bytes := match nth 1 sv_calls (Tick 0) with Packet p => p | _ => [] end.
Definition first_hello13 : bytes := match nth 1 xs_calls (Tick 0) with Packet p => p | _ => [] end.
Definition is_hello12 (r : res (option Msg12)) : bool := match r with Ok (Some m) => (m_type m =? MT_ClientHello) && (m_seq m =? 0) && negb (is_nil (m_raw m)) | _ => false end.
Definition is_hello13 (r : res (option Msg13)) : bool := match r with Ok (Some m) => (n_type m =? MT_ClientHello) && (n_seq m =? 0) && negb (is_nil (n_raw m)) | _ => false end.
Example C11_taken12_ex : is_hello12 (fst (next_handshake MT_ClientHello (snd (eng12_parse_packet toy2 first_hello12 (end_eng (new_server toy2 config_default (toy_auth 9) 0)))))) = true.
Proof. vm_compute. reflexivity. Qed.
Example C11_taken13_ex : is_hello13 (fst (next_handshake13_gen true true MT_ClientHello (snd (eng13_parse_packet toy2 first_hello13 (end13_eng xs0))))) = true.
Proof. vm_compute. reflexivity. Qed.

(** What the transcript of a DTLS 1.2 endpoint says about its history: messages received
    and sent, with their numbers, and the resets after a cookie exchange. *)
Inductive HsEvent := Got (t n : N) (b : bytes) | Sent (t n : N) (b : bytes) | Forgotten.
Definition replay12 (tr : bytes) (evs : list HsEvent) : bytes :=
  fold_left (fun tr e => match e with Got t n b | Sent t n b => tr ++ added12 t n b | Forgotten => [] end) evs tr.
Definition got (evs : list HsEvent) : list N := flat_map (fun e => match e with Got _ n _ => [n] | _ => [] end) evs.
Definition sent (evs : list HsEvent) : list N := flat_map (fun e => match e with Sent _ n _ => [n] | _ => [] end) evs.
(** The numbers are [p], [p+1], ... (16 bits). *)
Definition consecutive (p : N) (l : list N) : Prop := forall i n, nth_error l i = Some n -> n = (p + N.of_nat i) mod 65536.

Definition logged (a b : Eng12) : Prop :=
  en_peer_hs a < 65536 -> en_next_hs a < 65536 ->
  (en_peer_hs b < 65536 /\ en_next_hs b < 65536) /\
  exists evs, en_transcript b = replay12 (en_transcript a) evs /\
    consecutive (en_peer_hs a) (got evs) /\ en_peer_hs b = (en_peer_hs a + len (got evs)) mod 65536 /\
    consecutive (en_next_hs a) (sent evs) /\ en_next_hs b = (en_next_hs a + len (sent evs)) mod 65536.
Lemma consecutive_nil p : consecutive p [].
Proof. intros [|i] n; discriminate. Qed.
Lemma consecutive_app p l l' : consecutive p l -> consecutive ((p + len l) mod 65536) l' -> consecutive p (l ++ l').
Proof.
  intros A B i n H. destruct (Nat.lt_ge_cases i (length l)) as [Hi|Hi].
  - apply A. rewrite nth_error_app1 in H by exact Hi. exact H.
  - rewrite nth_error_app2 in H by exact Hi. rewrite (B _ _ H). unfold len. rewrite N.add_mod_idemp_l by discriminate. f_equal. lia.
Qed.
Lemma logged_po : preorder logged.
Proof.
  split.
  - intros a A B. split; [auto|]. exists []. cbn. unfold len. cbn [length].
    split; [reflexivity|]. split; [apply consecutive_nil|]. split; [rewrite N.mod_small; lia|]. split; [apply consecutive_nil|rewrite N.mod_small; lia].
  - intros a b c R1 R2 A B. destruct (R1 A B) as ((A1 & B1) & e1 & X1 & X2 & X3 & X4 & X5).
    destruct (R2 A1 B1) as ((A2 & B2) & e2 & Y1 & Y2 & Y3 & Y4 & Y5). split; [auto|]. exists (e1 ++ e2).
    unfold replay12, got, sent in *. rewrite fold_left_app, !flat_map_app, <- X1, !len_app. split; [exact Y1|].
    rewrite X3 in Y2, Y3. rewrite X5 in Y4, Y5.
    split; [apply consecutive_app; assumption|]. split; [rewrite Y3, N.add_mod_idemp_l, N.add_assoc by discriminate; reflexivity|].
    split; [apply consecutive_app; assumption|]. rewrite Y5, N.add_mod_idemp_l, N.add_assoc by discriminate. reflexivity.
Qed.
Lemma logged_same a b : en_peer_hs b = en_peer_hs a -> en_next_hs b = en_next_hs a -> en_transcript b = en_transcript a -> logged a b.
Proof.
  intros P X T A B. split; [split; congruence|]. exists []. cbn. rewrite P, X, T. unfold len. cbn [length]. rewrite !N.add_0_r, !N.mod_small by assumption.
  repeat split; apply consecutive_nil.
Qed.
Lemma logged_vsame a b : Vsame a b -> logged a b.
Proof. intros H. apply logged_same; apply H. Qed.
Lemma logged_cleared a b : en_peer_hs b = en_peer_hs a -> en_next_hs b = en_next_hs a -> en_transcript b = [] -> logged a b.
Proof.
  intros P X T A B. split; [split; congruence|]. exists [Forgotten]. cbn. rewrite P, X, T. unfold len. cbn [length]. rewrite !N.add_0_r, !N.mod_small by assumption.
  repeat split; apply consecutive_nil.
Qed.
Lemma be3_u32 x : be 3 (u32 x) = be 3 x.
Proof.
  change (u32 x) with (x mod (256 * (256 * (256 * 256)))). cbn [be app].
  assert (K : forall y m, m <> 0 -> (y mod (256 * m)) mod 256 = y mod 256).
  { intros y m Hm. rewrite N.mod_mul_r by (try discriminate; exact Hm). rewrite (N.mul_comm 256 (_ mod _)), N.mod_add, N.mod_mod by discriminate. reflexivity. }
  assert (D : forall y m, m <> 0 -> (y mod (256 * m)) / 256 = (y / 256) mod m).
  { intros y m Hm. rewrite N.mod_mul_r by (try discriminate; exact Hm). rewrite (N.mul_comm 256 (_ mod _)), N.div_add by discriminate.
    rewrite (N.div_small (y mod 256)) by (apply N.mod_lt; discriminate). reflexivity. }
  rewrite (D x (256 * (256 * 256))) by discriminate. rewrite (D (x / 256) (256 * 256)) by discriminate.
  rewrite (K _ 256), (K _ (256 * 256)), (K _ (256 * (256 * 256))) by discriminate. reflexivity.
Qed.
Lemma logged_create E mt mk : pres logged mk -> pres logged (create_handshake E mt mk).
Proof.
  intros Hm s. apply (v_create_handshake E mt mk (fun _ s' => logged s s')). specialize (Hm s). unfold wp. destruct (mk s) as [[body|x|n] e1]; cbn [fst snd] in *; [|exact Hm|exact Hm].
  intros r' e' V. eapply (po_trans _ logged_po); [exact Hm|]. intros A B.
  assert (P := vs_peer_hs _ _ V). assert (X := vs_next_hs _ _ V). assert (T := vs_transcript _ _ V). ecbn_in P. ecbn_in X. ecbn_in T.
  split; [rewrite P, X; split; [exact A|unfold u16; apply N.mod_lt; discriminate]|].
  exists [Sent mt (en_next_hs e1) body]. cbn. rewrite P, X, T. unfold len at 1 3. cbn [length].
  rewrite N.add_0_r, (N.mod_small _ _ A). split; [unfold added12, s_hs_header; rewrite !be3_u32; reflexivity|].
  split; [apply consecutive_nil|]. split; [reflexivity|]. split; [|reflexivity].
  intros [|i] n; [|destruct i; discriminate]. intros [= <-]. cbn [N.of_nat]. rewrite N.add_0_r, N.mod_small by exact B. reflexivity.
Qed.
Lemma logged_next w : pres logged (next_handshake w).
Proof.
  intros s. apply (v_next_handshake w (fun _ s' => logged s s')); [apply logged_po|intros; apply logged_vsame; assumption|intros; apply logged_vsame; assumption|].
  intros m e' rest Ht Hs _ _ V A B.
  assert (P := vs_peer_hs _ _ V). assert (X := vs_next_hs _ _ V). assert (T := vs_transcript _ _ V). ecbn_in P. ecbn_in X. ecbn_in T.
  split; [rewrite P, X; split; [unfold u16; apply N.mod_lt; discriminate|exact B]|].
  exists [Got w (en_peer_hs s) (m_raw m)]. cbn. rewrite P, X, T. unfold len at 2 3. cbn [length].
  rewrite N.add_0_r, (N.mod_small _ _ B). split; [reflexivity|]. split; [|split; [reflexivity|split; [apply consecutive_nil|reflexivity]]].
  intros [|i] n; [|destruct i; discriminate]. intros [= <-]. cbn [N.of_nat]. rewrite N.add_0_r, N.mod_small by exact A. reflexivity.
Qed.
Lemma logged_frame E : eng_frame E logged.
Proof.
  assert (L : forall A (m : M Eng12 A), pres Vsame m -> pres logged m) by (intros A m H s; apply logged_vsame, H).
  pose proof logged_po as PO.
  Ltac lpre := first [exact logged_po|intros; apply logged_same; reflexivity].
  constructor; [constructor|..].
  - exact PO.
  - lpre.
  - lpre.
  - apply fr_flight_begin; lpre.
  - intros. apply fr_create_record; lpre.
  - intros. apply logged_create. assumption.
  - intros. apply logged_next.
  - intros. apply fr_next_record; lpre.
  - apply fr_drop_ccs; lpre.
  - apply pres_modify. intros s. apply logged_cleared; reflexivity.
  - apply pres_modify. intros s. apply logged_cleared; reflexivity.
  - intros. apply fr_set_suite; lpre.
  - apply fr_enable_peer; lpre.
  - apply fr_flight_stop; lpre.
  - apply fr_release; lpre.
  - apply fr_discard; lpre.
  - lpre.
  - apply fr_abort; lpre.
  - intros. apply fr_parse_packet; lpre.
  - intros. apply fr_poll_output; lpre.
  - intros. apply fr_handle_timeout; lpre.
Qed.
(** The messages received have the numbers 0, 1, 2, ..., each once and in this order,
    whatever was delivered; so have the messages sent. *)
Theorem C11_in_order12 : forall E cfg auth h s, reach12 E cfg auth h s -> exists evs,
  en_transcript (end_eng s) = replay12 [] evs /\
  consecutive 0 (got evs) /\ en_peer_hs (end_eng s) = len (got evs) mod 65536 /\
  consecutive 0 (sent evs) /\ en_next_hs (end_eng s) = len (sent evs) mod 65536.
Proof.
  intros E cfg auth h s H. destruct (lf_reach E logged (logged_frame E) cfg auth h s H) as (_ & K); [reflexivity|reflexivity|exact K].
Qed.
Print Assumptions C11_in_order12.
(** A complete handshake: the client took seven messages and sent six. *)
Example C11_in_order12_ex : reach12 toy config_default (toy_auth 7) (fst cl_run) (snd cl_run) /\
  en_peer_hs (end_eng (snd cl_run)) = 7 /\ en_next_hs (end_eng (snd cl_run)) = 6.
Proof. split; [exact cl_run_reach|]. vm_compute. split; reflexivity. Qed.

(** In DTLS 1.3 a message that fails to be processed stays counted as the next one
    although it is consumed: a forged ServerHello with an unacceptable version is added to
    the transcript and reported as an error, and then the genuine one with the same number is
    taken as well. *)
Definition bad_sh : bytes := s_sh13 (mkSH12 V_DTLS13 (repeat 5 32) [] 4865 0 (Some [])).
Definition sh_datagram (n : N) (m : bytes) : bytes := s_plain13 CT_HS 0 n (s_hs_header MT_ServerHello (len m) 0 0 (len m) ++ m).
Definition good_sh : bytes := Eval vm_compute in skipn 25 (nth 0 nr_flight []).
Definition twice_calls : list Call := [Tick 5; Poll 3000; Poll 3000; Packet (sh_datagram 9 bad_sh); Poll 3000; Packet (nth 0 nr_flight [])].
Definition twice_run : Log * End13 := replay13 toy twice_calls xc0.

Theorem C11_number_reused13_refuted : exists h s m1 m2 t0,
  reach13 toy config_default [48; 7] (toy_key 7) h s /\ Forall (fun x => ~ panicked (snd x)) h /\
  received h = [sh_datagram 9 m1; sh_datagram 0 m2] /\ m1 <> m2 /\
  g_transcript (end13_eng s) = t0 ++ added13 MT_ServerHello m1 ++ added13 MT_ServerHello m2.
Proof.
  exists (fst twice_run), (snd twice_run), bad_sh, good_sh,
    (firstn (length (g_transcript (end13_eng (snd twice_run))) - (8 + length bad_sh + length good_sh)) (g_transcript (end13_eng (snd twice_run)))).
  split; [exists xc0; split; [apply new_client13_start|apply replay13_history; vm_compute; reflexivity]|].
  split; [apply quiet_forall; vm_compute; reflexivity|].
  split; [vm_compute; reflexivity|]. split; [vm_compute; discriminate|]. vm_compute. reflexivity.
Qed.
Print Assumptions C11_number_reused13_refuted.
