(** Reassembly of handshake messages: facts about the receive queue that are common to
    both versions (C10). *)
From Verif Require Import Prelude PreludeFacts Types Codec Codec12 Env Record12 Record13 Engine12 Frag12Proofs.
From Coq Require Import Sorting.Sorted.

(** ** Specification *)

(** A message of a flight: type, body and the pieces its body is cut into. *)
Record FMsg := mkFMsg { fm_type : N; fm_body : bytes; fm_cut : list bytes }.
(** The fragments of a message with number [seq], from offset [off]. *)
Fixpoint frags_from (t total seq off : N) (cs : list bytes) : list Frag12 :=
  match cs with
  | [] => []
  | c :: cs => mkFrag t total seq off (len c) c false :: frags_from t total seq (off + len c) cs
  end.
Definition msg_frags (n : N) (m : FMsg) : list Frag12 :=
  frags_from (fm_type m) (len (fm_body m)) n 0 (fm_cut m).
(** The fragments of a flight whose first message has number [n]. *)
Fixpoint flight_frags (n : N) (fl : list FMsg) : list Frag12 :=
  match fl with
  | [] => []
  | m :: fl => msg_frags n m ++ flight_frags (n + 1) fl
  end.
(** A flight cut into datagrams: the pieces make up the bodies, and the datagrams,
    each with at least one fragment, make up the flight. *)
Definition flight_ok (n : N) (fl : list FMsg) (ds : list (list Frag12)) : Prop :=
  Forall (fun m => message_pieces (fm_body m) (fm_cut m)) fl /\
  Forall (fun d => d <> []) ds /\ concat ds = flight_frags n fl.

(** ** Order *)
Definition flt (a b : Frag12) : Prop := f_seq a < f_seq b \/ (f_seq a = f_seq b /\ f_off a < f_off b).

Lemma cut_ok b cs : message_pieces b cs -> cs <> [] /\ (Forall (fun c => c <> []) cs \/ cs = [[]]).
Proof.
  intros [H1 H2]. destruct b; [subst cs; split; [discriminate|auto]|]. split; [|auto]. intros ->. discriminate.
Qed.
Lemma frags_from_in t total n cs : forall off f, In f (frags_from t total n off cs) ->
  f_seq f = n /\ f_type f = t /\ f_length f = total /\ off <= f_off f /\ f_handled f = false.
Proof.
  induction cs as [|c cs IH]; intros off f; [intros []|]. cbn [frags_from]. intros [<-|H]; [cbn; repeat split; lia|].
  destruct (IH _ _ H) as (H1 & H2 & H3 & H4 & H5). repeat split; auto. lia.
Qed.
Lemma frags_from_ordered t total n cs : forall off, Forall (fun c => c <> []) cs \/ cs = [[]] ->
  ForallOrdPairs flt (frags_from t total n off cs).
Proof.
  induction cs as [|c cs IH]; intros off H; [constructor|]. cbn [frags_from].
  destruct H as [H|H]; [|injection H as -> ->; repeat constructor].
  inversion H as [|? ? Hc Hcs]; subst. constructor; [|apply IH; auto].
  apply Forall_forall. intros f Hf. destruct (frags_from_in _ _ _ _ _ _ Hf) as (H1 & _ & _ & H2 & _).
  right. cbn. split; [congruence|]. destruct c; [congruence|]. unfold len in *. cbn [length] in *. lia.
Qed.
Lemma flight_frags_seq fl : forall n f, In f (flight_frags n fl) -> n <= f_seq f /\ f_seq f < n + len fl.
Proof.
  induction fl as [|m fl IH]; intros n f; [intros []|]. cbn [flight_frags]. intros H. apply in_app_or in H. destruct H as [H|H].
  - apply frags_from_in in H. destruct H as (-> & _). unfold len. cbn [length]. lia.
  - apply IH in H. unfold len in *. cbn [length]. lia.
Qed.
Lemma FOP_app {A} (R : A -> A -> Prop) a b : ForallOrdPairs R a -> ForallOrdPairs R b ->
  (forall x y, In x a -> In y b -> R x y) -> ForallOrdPairs R (a ++ b).
Proof.
  induction a as [|x a IH]; intros Ha Hb H; [exact Hb|]. inversion Ha; subst. cbn. constructor.
  - apply Forall_app. split; [assumption|]. apply Forall_forall. intros y Hy. apply H; [left; reflexivity|exact Hy].
  - apply IH; auto. intros; apply H; [right|]; assumption.
Qed.
Lemma flight_ordered fl : forall n, Forall (fun m => message_pieces (fm_body m) (fm_cut m)) fl ->
  ForallOrdPairs flt (flight_frags n fl).
Proof.
  induction fl as [|m fl IH]; intros n H; [constructor|]. inversion H as [|? ? Hm Hfl]; subst. cbn [flight_frags].
  apply FOP_app; [apply frags_from_ordered; apply (cut_ok _ _ Hm)|auto|].
  intros x y Hx Hy. apply frags_from_in in Hx. apply flight_frags_seq in Hy. left. destruct Hx as [-> _]. lia.
Qed.
Lemma FOP_app_inv {A} (R : A -> A -> Prop) a b : ForallOrdPairs R (a ++ b) ->
  ForallOrdPairs R a /\ ForallOrdPairs R b /\ (forall x y, In x a -> In y b -> R x y).
Proof.
  induction a as [|x a IH]; cbn; intros H; [split; [constructor|split; [exact H|intros ? ? []]]|].
  inversion H as [|? ? H1 H2]; subst. destruct (IH H2) as (I1 & I2 & I3). rewrite Forall_app in H1. destruct H1 as [H1a H1b].
  split; [constructor; assumption|]. split; [exact I2|]. intros z y [<-|Hz] Hy; [|auto]. rewrite Forall_forall in H1b. auto.
Qed.

(** ** Subsequences *)
Inductive subseq {A} : list A -> list A -> Prop :=
| sub_nil : subseq [] []
| sub_skip x a b : subseq a b -> subseq a (x :: b)
| sub_take x a b : subseq a b -> subseq (x :: a) (x :: b).
Lemma subseq_refl {A} (l : list A) : subseq l l.
Proof. induction l; [constructor|apply sub_take; assumption]. Qed.
Lemma subseq_nil_l {A} (l : list A) : subseq [] l.
Proof. induction l; constructor; assumption. Qed.
Lemma subseq_in {A} (a b : list A) : subseq a b -> forall x, In x a -> In x b.
Proof. induction 1; intros y Hy; cbn in *; [exact Hy|auto|destruct Hy; auto]. Qed.
Lemma subseq_app {A} (a b c d : list A) : subseq a b -> subseq c d -> subseq (a ++ c) (b ++ d).
Proof. induction 1; intros H'; cbn; [exact H'|apply sub_skip; auto|apply sub_take; auto]. Qed.
Lemma subseq_concat {A} (a b : list (list A)) : subseq a b -> subseq (concat a) (concat b).
Proof.
  induction 1 as [|x a b H IH|x a b H IH]; cbn; [constructor| |apply subseq_app; [apply subseq_refl|exact IH]].
  apply (subseq_app [] x); [apply subseq_nil_l|exact IH].
Qed.
Lemma subseq_ordered {A} (R : A -> A -> Prop) a b : subseq a b -> ForallOrdPairs R b -> ForallOrdPairs R a.
Proof.
  induction 1 as [|x a b H IH|x a b H IH]; intros K; [constructor| |]; inversion K as [|? ? K1 K2]; subst; [auto|].
  constructor; [|auto]. rewrite Forall_forall in *. intros y Hy. apply K1. eapply subseq_in; eassumption.
Qed.
Lemma subseq_filter {A} (p : A -> bool) a b : subseq a b -> subseq (filter p a) (filter p b).
Proof. induction 1 as [|x a b H IH|x a b H IH]; cbn; [constructor|destruct (p x); [apply sub_skip|]; exact IH|destruct (p x); [apply sub_take|]; exact IH]. Qed.
Lemma subseq_length {A} (a b : list A) : subseq a b -> (length a <= length b)%nat.
Proof. induction 1; cbn; lia. Qed.
Lemma subseq_full {A} (a b : list A) : subseq a b -> length a = length b -> a = b.
Proof.
  induction 1 as [|x a b H IH|x a b H IH]; cbn; intros K; [reflexivity| |f_equal; apply IH; lia].
  apply subseq_length in H. lia.
Qed.
Lemma subseq_firstn {A} n (a : list A) : subseq (firstn n a) a.
Proof. revert n. induction a as [|x a IH]; intros [|n]; cbn; [constructor|constructor|apply subseq_nil_l|apply sub_take; auto]. Qed.
Lemma subseq_trans {A} (a b c : list A) : subseq a b -> subseq b c -> subseq a c.
Proof.
  intros H K. revert a H. induction K as [|x b c K IH|x b c K IH]; intros a H; [exact H|apply sub_skip; auto|].
  inversion H; subst; [apply sub_skip|apply sub_take]; auto.
Qed.

(** ** Datagrams in the queue *)
Definition mark (p : N) (f : Frag12) : Frag12 := set_f_handled (f_seq f <? p) f.
(** A queue item holds datagram [d]; fragments of messages before [p] are handled. *)
Definition holds (p : N) (d : list Frag12) (inc : list Rec12) : Prop :=
  map r_hs inc = map (fun f => [mark p f]) d.

Definition dkey (d : list Frag12) : N * N := match d with f :: _ => (f_seq f, f_off f) | [] => (0, 0) end.
Definition klt (a b : N * N) : Prop := cmp_pair a b = Lt.
Lemma cmp_pair_eq a b : cmp_pair a b = Eq <-> a = b.
Proof.
  destruct a as [a1 a2], b as [b1 b2]. unfold cmp_pair. cbn [fst snd].
  destruct (a1 ?= b1) eqn:H; [apply N.compare_eq_iff in H; subst|rewrite N.compare_lt_iff in H|rewrite N.compare_gt_iff in H].
  - rewrite N.compare_eq_iff. split; [intros ->; reflexivity|congruence].
  - split; [discriminate|]. intros [= -> ->]. lia.
  - split; [discriminate|]. intros [= -> ->]. lia.
Qed.
Lemma cmp_pair_lt a b : cmp_pair a b = Lt <-> fst a < fst b \/ (fst a = fst b /\ snd a < snd b).
Proof.
  unfold cmp_pair. destruct (fst a ?= fst b) eqn:H;
    [apply N.compare_eq_iff in H|rewrite N.compare_lt_iff in H|rewrite N.compare_gt_iff in H].
  - rewrite N.compare_lt_iff. lia.
  - split; [lia|reflexivity].
  - split; [discriminate|lia].
Qed.
Lemma cmp_pair_gt a b : cmp_pair a b = Gt <-> cmp_pair b a = Lt.
Proof.
  rewrite cmp_pair_lt. unfold cmp_pair. destruct (fst a ?= fst b) eqn:H;
    [apply N.compare_eq_iff in H|rewrite N.compare_lt_iff in H|rewrite N.compare_gt_iff in H].
  - rewrite N.compare_gt_iff. lia.
  - split; [discriminate|lia].
  - split; [lia|reflexivity].
Qed.

Lemma holds_key p d inc : d <> [] -> holds p d inc -> hs_key inc = dkey d.
Proof.
  intros Hd H. destruct d as [|f d]; [congruence|]. destruct inc as [|r inc]; [discriminate|].
  cbn in H. injection H as H1 H2. unfold hs_key, first_hs. rewrite H1. reflexivity.
Qed.

(** The datagrams of the flight are ordered by the key of their first fragment. *)
Definition dgs_ordered (ds : list (list Frag12)) : Prop :=
  Forall (fun d => d <> []) ds /\ ForallOrdPairs flt (concat ds).
Lemma dgs_keys ds : dgs_ordered ds -> ForallOrdPairs (fun a b => klt (dkey a) (dkey b)) ds.
Proof.
  intros [H1 H2]. induction ds as [|d ds IH]; [constructor|]. inversion H1 as [|? ? Hd Hds]; subst.
  cbn [concat] in H2. apply FOP_app_inv in H2. destruct H2 as (_ & K2 & K3). constructor; [|auto].
  apply Forall_forall. intros x Hx. rewrite Forall_forall in Hds. pose proof (Hds _ Hx) as Nx.
  destruct d as [|f d]; [congruence|]. destruct x as [|g x]; [congruence|].
  specialize (K3 f g (or_introl eq_refl)). unfold klt. apply cmp_pair_lt. cbn. apply K3.
  apply in_concat. exists (g :: x). split; [exact Hx|left; reflexivity].
Qed.

Lemma insert_place (ds : list (list Frag12)) d : ForallOrdPairs (fun a b => klt (dkey a) (dkey b)) ds -> In d ds ->
  forall have, subseq have ds -> exists x o y, have = x ++ o ++ y /\ (o = [] \/ o = [d]) /\ subseq (x ++ d :: y) ds /\
    Forall (fun a => klt (dkey a) (dkey d)) x /\ Forall (fun a => klt (dkey d) (dkey a)) y.
Proof.
  induction ds as [|e ds IH]; intros Ho Hin have Hs; [destruct Hin|]. inversion Ho as [|? ? Ho1 Ho2]; subst.
  destruct Hin as [->|Hin].
  - assert (G : forall y, subseq y ds -> Forall (fun a => klt (dkey d) (dkey a)) y).
    { intros y Hy. apply Forall_forall. intros a Ha. rewrite Forall_forall in Ho1. apply Ho1. eapply subseq_in; eassumption. }
    inversion Hs as [|? a ? H1|? a ? H1]; subst.
    + exists [], [], have. cbn. split; [reflexivity|]. split; [auto|]. split; [apply sub_take; exact H1|]. split; [constructor|auto].
    + exists [], [d], a. cbn. split; [reflexivity|]. split; [auto|]. split; [apply sub_take; exact H1|]. split; [constructor|auto].
  - inversion Hs as [|? a ? H1|? a ? H1]; subst; destruct (IH Ho2 Hin _ H1) as (x & o & y & -> & K2 & K3 & K4 & K5).
    + exists x, o, y. split; [reflexivity|]. split; [exact K2|]. split; [apply sub_skip; exact K3|]. split; assumption.
    + exists (e :: x), o, y. split; [reflexivity|]. split; [exact K2|]. split; [cbn; apply sub_take; exact K3|]. split; [|assumption].
      constructor; [|exact K4]. rewrite Forall_forall in Ho1. auto.
Qed.

(** ** Fragments ordered by number *)
Definition seq_le (a b : Frag12) : Prop := f_seq a <= f_seq b.
Lemma flt_seq_le l : ForallOrdPairs flt l -> ForallOrdPairs seq_le l.
Proof. induction 1; constructor; auto. eapply Forall_impl; [|eassumption]. intros b [K|[K _]]; unfold seq_le; lia. Qed.
Lemma split_at_seq p l : ForallOrdPairs seq_le l ->
  l = filter (fun f => f_seq f <? p) l ++ filter (fun f => f_seq f =? p) l ++ filter (fun f => p <? f_seq f) l.
Proof.
  induction 1 as [|f l H1 H2 IH]; [reflexivity|]. cbn [filter].
  assert (G : forall q : Frag12 -> bool, (forall g, f_seq f <= f_seq g -> q g = false) -> filter q l = []).
  { intros q Hq. clear IH H2. induction l as [|g l IHl]; [reflexivity|]. inversion H1; subst. cbn.
    rewrite Hq by assumption. apply IHl. assumption. }
  destruct (f_seq f <? p) eqn:C1.
  - replace (f_seq f =? p) with false by lia. replace (p <? f_seq f) with false by lia. cbn. f_equal. exact IH.
  - rewrite (G (fun f => f_seq f <? p)) in * by (intros; lia). destruct (f_seq f =? p) eqn:C2.
    + replace (p <? f_seq f) with false by lia. cbn. f_equal. exact IH.
    + rewrite (G (fun f => f_seq f =? p)) in * by (intros; lia). replace (p <? f_seq f) with true by lia. cbn in *. f_equal. exact IH.
Qed.

(** ** Completeness of a subsequence of the pieces *)
Lemma complete_all t total n rest : Forall (fun f => f_seq f <> n) rest -> forall cs off sub,
  off + len (concat cs) = total -> Forall (fun c => c <> []) cs \/ cs = [[]] ->
  subseq sub (frags_from t total n off cs) ->
  frags_complete n total off (sub ++ rest) = true -> sub = frags_from t total n off cs.
Proof.
  intros Hr. assert (Z : forall e, frags_complete n total e rest = false).
  { intros e. induction Hr as [|f l Hf Hl IH]; [reflexivity|]. cbn. replace (f_seq f =? n) with false by lia. exact IH. }
  induction cs as [|c cs IH]; intros off sub Ht Hc Hs Hk.
  - inversion Hs; reflexivity.
  - cbn [frags_from] in *. inversion Hs as [|? ? ? H1|? a ? H1]; subst.
    + destruct sub as [|g sub]; [cbn in Hk; rewrite Z in Hk; discriminate|].
      pose proof (subseq_in _ _ H1 g (or_introl eq_refl)) as Hg. apply frags_from_in in Hg. destruct Hg as (G1 & _ & _ & G2 & _).
      cbn [app frags_complete] in Hk. rewrite G1, N.eqb_refl in Hk. cbn [negb] in Hk.
      destruct Hc as [Hc|Hc]; [inversion Hc as [|? ? Hc0 _]; subst|injection Hc as -> ->; inversion H1].
      assert (0 < len c) by (destruct c; [congruence|unfold len; cbn; lia]).
      replace (f_off g =? off) with false in Hk by lia. discriminate.
    + f_equal. cbn [app frags_complete f_seq f_off f_flen] in Hk. rewrite !N.eqb_refl in Hk. cbn [negb] in Hk.
      destruct Hc as [Hc|Hc]; [|injection Hc as -> ->; inversion H1; reflexivity].
      inversion Hc as [|? ? _ Hc0]; subst.
      cbn [concat] in *. rewrite len_app in *. destruct (off + len c =? _) eqn:He.
      * destruct cs as [|c' cs]; [inversion H1; reflexivity|]. inversion Hc0 as [|? ? Hc1 _]; subst.
        cbn [concat] in He. rewrite len_app in He. destruct c'; [congruence|]. unfold len in He. cbn [length] in He. lia.
      * apply IH; auto. lia.
Qed.
Lemma complete_full t total n rest cs : forall off, off + len (concat cs) = total -> cs <> [] ->
  frags_complete n total off (frags_from t total n off cs ++ rest) = true.
Proof.
  induction cs as [|c cs IH]; intros off Ht Hc; [congruence|]. cbn [frags_from app frags_complete f_seq f_off f_flen].
  rewrite !N.eqb_refl. cbn [negb]. destruct (off + len c =? total) eqn:He; [reflexivity|].
  cbn [concat] in Ht. rewrite len_app in Ht. apply IH; [lia|]. intros ->. cbn in Ht. unfold len in Ht at 2. cbn in Ht. lia.
Qed.
Lemma scan_all t total n rest : Forall (fun f => f_seq f <> n) rest -> forall cs off sub,
  off + len (concat cs) = total -> Forall (fun c => c <> []) cs \/ cs = [[]] ->
  subseq sub (frags_from t total n off cs) ->
  frags_scan n total off (sub ++ rest) = ScanComplete -> sub = frags_from t total n off cs.
Proof.
  intros Hr. assert (Z : forall e, frags_scan n total e rest <> ScanComplete).
  { intros e. induction Hr as [|f l Hf Hl IH]; [discriminate|]. cbn. replace (f_seq f =? n) with false by lia. exact IH. }
  induction cs as [|c cs IH]; intros off sub Ht Hc Hs Hk.
  - inversion Hs; reflexivity.
  - cbn [frags_from] in *. inversion Hs as [|? ? ? H1|? a ? H1]; subst.
    + destruct sub as [|g sub]; [elim (Z _ Hk)|].
      pose proof (subseq_in _ _ H1 g (or_introl eq_refl)) as Hg. apply frags_from_in in Hg. destruct Hg as (G1 & _ & _ & G2 & _).
      cbn [app frags_scan] in Hk. rewrite G1, N.eqb_refl in Hk. cbn [negb] in Hk.
      destruct Hc as [Hc|Hc]; [inversion Hc as [|? ? Hc0 _]; subst|injection Hc as -> ->; inversion H1].
      assert (0 < len c) by (destruct c; [congruence|unfold len; cbn; lia]).
      replace (off <? f_off g) with true in Hk by lia. discriminate.
    + f_equal. cbn [app frags_scan f_seq f_off f_flen] in Hk. rewrite !N.eqb_refl, N.ltb_irrefl in Hk. cbn [negb] in Hk.
      destruct Hc as [Hc|Hc]; [|injection Hc as -> ->; inversion H1; reflexivity].
      inversion Hc as [|? ? Hc00 Hc0]; subst. assert (0 < len c) by (destruct c; [congruence|unfold len; cbn; lia]).
      replace (off <? off + len c) with true in Hk by lia.
      cbn [concat] in *. rewrite len_app in *. destruct (off + len c =? _) eqn:He.
      * destruct cs as [|c' cs]; [inversion H1; reflexivity|]. inversion Hc0 as [|? ? Hc1 _]; subst.
        cbn [concat] in He. rewrite len_app in He. destruct c'; [congruence|]. unfold len in He. cbn [length] in He. lia.
      * apply IH; auto. lia.
Qed.
Lemma scan_full t total n rest cs : forall off, off + len (concat cs) = total -> cs <> [] ->
  frags_scan n total off (frags_from t total n off cs ++ rest) = ScanComplete.
Proof.
  induction cs as [|c cs IH]; intros off Ht Hc; [congruence|]. cbn [frags_from app frags_scan f_seq f_off f_flen].
  rewrite !N.eqb_refl, N.ltb_irrefl. cbn [negb]. cbn [concat] in Ht. rewrite len_app in Ht.
  replace (if off <? off + len c then off + len c else off) with (off + len c) by (destruct (off <? off + len c) eqn:?; lia).
  destruct (off + len c =? total) eqn:He; [reflexivity|].
  apply IH; [lia|]. intros ->. cbn in Ht. unfold len in Ht at 2. cbn in Ht. lia.
Qed.

Lemma data_all t total n cs : forall off, flat_map f_data (frags_from t total n off cs) = concat cs.
Proof. induction cs as [|c cs IH]; intros off; [reflexivity|]. cbn. f_equal. apply IH. Qed.
Lemma assemble_all t total n cs : forall off, assemble13 off (frags_from t total n off cs) = concat cs.
Proof.
  induction cs as [|c cs IH]; intros off; [reflexivity|]. cbn [frags_from assemble13 f_off f_flen f_data concat].
  rewrite N.sub_diag. replace (if off <? off + len c then off + len c else off) with (off + len c) by (destruct (off <? off + len c) eqn:?; lia).
  rewrite IH. f_equal. destruct (0 <? len c) eqn:H; [reflexivity|]. destruct c; [reflexivity|]. unfold len in H. cbn in H. lia.
Qed.
Lemma assemble_run_all t total n off cs : assemble_run13 (frags_from t total n off cs) = concat cs.
Proof. destruct cs as [|c cs]; [reflexivity|]. cbn. f_equal. apply assemble_all. Qed.

(** ** Marking a consumed message *)
Lemma map_acc_app {S A} (f : S -> A -> A * S) a : forall st b,
  map_acc f st (a ++ b) = (fst (map_acc f st a) ++ fst (map_acc f (snd (map_acc f st a)) b), snd (map_acc f (snd (map_acc f st a)) b)).
Proof.
  induction a as [|x a IH]; intros st b; cbn [app map_acc fst snd].
  - destruct (map_acc f st b); reflexivity.
  - destruct (f st x) as [x' st']. rewrite IH. destruct (map_acc f st' a) as [a' sa]. cbn. reflexivity.
Qed.
Lemma map_acc_length {S A} (f : S -> A -> A * S) l : forall st, length (fst (map_acc f st l)) = length l.
Proof. induction l as [|x l IH]; intros st; [reflexivity|]. cbn. destruct (f st x). specialize (IH s). destruct (map_acc f s l). cbn in *. lia. Qed.
Lemma app_eq_length {A} (a b c d : list A) : length a = length c -> a ++ b = c ++ d -> a = c /\ b = d.
Proof.
  revert c. induction a as [|x a IH]; intros [|y c] H K; cbn in *; try discriminate; [auto|].
  injection K as -> K. destruct (IH c ltac:(lia) K) as [-> ->]. auto.
Qed.
Definition on_frags (g : Frag12 -> Frag12) (r : Rec12) : Rec12 := set_r_hs (map g (r_hs r)) r.
Lemma nested_recs g rs : forall st, fst (map_acc mark_frag st (flat_map r_hs rs)) = map g (flat_map r_hs rs) ->
  map_acc mark_rec_frags st rs = (map (on_frags g) rs, snd (map_acc mark_frag st (flat_map r_hs rs))).
Proof.
  induction rs as [|r rs IH]; intros st H; [reflexivity|]. cbn [flat_map] in *. rewrite map_acc_app in *. cbn [fst snd] in *.
  rewrite map_app in H. apply app_eq_length in H; [|rewrite map_acc_length, map_length; reflexivity]. destruct H as [H1 H2].
  cbn [map_acc]. unfold mark_rec_frags at 1. destruct (map_acc mark_frag st (r_hs r)) as [hs st']. cbn [fst snd] in *. subst hs.
  rewrite (IH _ H2). reflexivity.
Qed.
Lemma nested_items g q : forall st, fst (map_acc mark_frag st (all_frags q)) = map g (all_frags q) ->
  map_acc (map_acc mark_rec_frags) st q = (map (map (on_frags g)) q, snd (map_acc mark_frag st (all_frags q))).
Proof.
  unfold all_frags. induction q as [|inc q IH]; intros st H; [reflexivity|]. cbn [concat] in *. rewrite flat_map_app, map_acc_app in *. cbn [fst snd] in *.
  rewrite map_app in H. apply app_eq_length in H; [|rewrite map_acc_length, map_length; reflexivity]. destruct H as [H1 H2].
  cbn [map_acc]. rewrite (nested_recs g inc st H1). rewrite (IH _ H2). reflexivity.
Qed.

Lemma mark_skip p l : Forall (fun f => f_seq f < p) l -> map_acc mark_frag RunSkip (map (mark p) l) = (map (mark (p + 1)) l, RunSkip).
Proof.
  induction 1 as [|f l H1 H2 IH]; [reflexivity|]. cbn [map map_acc]. unfold mark_frag at 1, mark at 1. cbn [f_handled set_f_handled].
  replace (f_seq f <? p) with true by lia. rewrite IH. unfold mark. replace (f_seq f <? p + 1) with true by lia.
  replace (f_seq f <? p) with true by lia. reflexivity.
Qed.
Lemma mark_frag_in p t f : f_seq f = p -> f_type f = t -> mark_frag (RunIn t p) (mark p f) = (mark (p + 1) f, RunIn t p).
Proof.
  intros H1 H2. unfold mark_frag, mark. cbn [f_type f_seq set_f_handled]. rewrite H1, H2, !N.eqb_refl. cbn [andb].
  replace (p <? p + 1) with true by lia. reflexivity.
Qed.
Lemma mark_in p t l : Forall (fun f => f_seq f = p /\ f_type f = t) l ->
  map_acc mark_frag (RunIn t p) (map (mark p) l) = (map (mark (p + 1)) l, RunIn t p).
Proof.
  induction 1 as [|f l [H1 H3] H2 IH]; [reflexivity|]. cbn [map map_acc]. rewrite mark_frag_in by assumption. rewrite IH. reflexivity.
Qed.
Lemma mark_done p l : Forall (fun f => p < f_seq f) l -> map_acc mark_frag RunDone (map (mark p) l) = (map (mark (p + 1)) l, RunDone).
Proof.
  induction 1 as [|f l H1 H2 IH]; [reflexivity|]. cbn [map map_acc mark_frag]. rewrite IH.
  unfold mark. replace (f_seq f <? p) with false by lia. replace (f_seq f <? p + 1) with false by lia. reflexivity.
Qed.
Lemma mark_message p t a w g : Forall (fun f => f_seq f < p) a -> Forall (fun f => f_seq f = p /\ f_type f = t) w -> w <> [] ->
  Forall (fun f => p < f_seq f) g ->
  fst (map_acc mark_frag RunSkip (map (mark p) (a ++ w ++ g))) = map (mark (p + 1)) (a ++ w ++ g).
Proof.
  intros Ha Hw Nw Hg. rewrite !map_app, map_acc_app, (mark_skip _ _ Ha). cbn [fst snd]. f_equal.
  destruct w as [|f w]; [congruence|]. inversion Hw as [|? ? [Hf Ht] Hw']; subst. cbn [map app map_acc].
  assert (E1 : mark_frag RunSkip (mark (f_seq f) f) = (mark (f_seq f + 1) f, RunIn (f_type f) (f_seq f))).
  { unfold mark_frag, mark. cbn [f_type f_seq f_handled set_f_handled]. rewrite N.ltb_irrefl.
    replace (f_seq f <? f_seq f + 1) with true by lia. reflexivity. }
  rewrite E1, map_acc_app, (mark_in _ _ _ Hw'). cbn [fst snd].
  assert (E : fst (map_acc mark_frag (RunIn (f_type f) (f_seq f)) (map (mark (f_seq f)) g)) = map (mark (f_seq f + 1)) g).
  { destruct g as [|h g]; [reflexivity|]. inversion Hg as [|? ? Hh Hg']; subst. cbn [map map_acc].
    assert (E2 : mark_frag (RunIn (f_type f) (f_seq f)) (mark (f_seq f) h) = (mark (f_seq f + 1) h, RunDone)).
    { unfold mark_frag, mark. cbn [f_type f_seq f_handled set_f_handled]. replace (f_seq h =? f_seq f) with false by lia. rewrite andb_false_r.
      replace (f_seq h <? f_seq f) with false by lia. replace (f_seq h <? f_seq f + 1) with false by lia. reflexivity. }
    rewrite E2, (mark_done _ _ Hg'). reflexivity. }
  rewrite E. reflexivity.
Qed.

(** ** One record, one fragment *)
Definition singles (rs : list Rec12) (fs : list Frag12) : Prop := map r_hs rs = map (fun f => [f]) fs.
Lemma singles_frags rs : forall fs, singles rs fs -> flat_map r_hs rs = fs.
Proof. unfold singles. induction rs as [|r rs IH]; intros [|f fs] H; try discriminate; [reflexivity|]. cbn in *. injection H as -> H. cbn. f_equal. auto. Qed.
Lemma singles_skip rs : forall fs, singles rs fs -> singles (skip_while rec_handled rs) (skip_while f_handled fs).
Proof.
  unfold singles. induction rs as [|r rs IH]; intros [|f fs] H; try discriminate; [reflexivity|]. cbn in *. injection H as H1 H.
  unfold rec_handled at 1. rewrite H1. cbn [forallb]. rewrite andb_true_r. destruct (f_handled f); [auto|]. cbn. rewrite H1, H. reflexivity.
Qed.
Lemma singles_firstn n : forall rs fs, singles rs fs -> singles (firstn n rs) (firstn n fs).
Proof. unfold singles. intros rs fs H. rewrite <- !firstn_map, H. reflexivity. Qed.
Lemma skip_while_app {A} (p : A -> bool) a b : Forall (fun x => p x = true) a -> skip_while p (a ++ b) = skip_while p b.
Proof. induction 1 as [|x a H1 H2 IH]; [reflexivity|]. cbn. rewrite H1. exact IH. Qed.
Lemma skip_while_none {A} (p : A -> bool) a : Forall (fun x => p x = false) a -> skip_while p a = a.
Proof. destruct 1 as [|x a H1 H2]; [reflexivity|]. cbn. rewrite H1. reflexivity. Qed.
Lemma take_while_app {A} (p : A -> bool) a b : Forall (fun x => p x = true) a -> Forall (fun x => p x = false) b ->
  take_while p (a ++ b) = a.
Proof.
  intros Ha Hb. induction Ha as [|x a H1 H2 IH]; cbn; [|rewrite H1, IH; reflexivity].
  destruct Hb as [|y b K _]; [reflexivity|]. cbn. rewrite K. reflexivity.
Qed.

Lemma Forall2_length {A B} (R : A -> B -> Prop) a b : Forall2 R a b -> length a = length b.
Proof. induction 1; cbn; congruence. Qed.

(** ** The queue *)
Record queue_ok (n p : N) (fl : list FMsg) (ds have : list (list Frag12)) (got : list Frag12 -> Prop) (rx : list (list Rec12)) : Prop := {
  qk_sub : subseq have ds;
  qk_items : Forall2 (holds p) have rx;
  (** Delivered datagrams, and datagrams that begin before message [p], are in the queue
      as long as they hold fragments of [p] or later messages. *)
  qk_must : forall d, In d ds -> (exists f, In f d /\ p <= f_seq f) ->
    got d \/ (exists f, In f d /\ f_seq f < p) -> In d have }.

Lemma items_frags p have rx : Forall2 (holds p) have rx -> singles (concat rx) (map (mark p) (concat have)).
Proof.
  unfold singles. induction 1 as [|d inc have rx H1 H2 IH]; [reflexivity|]. cbn. rewrite !map_app, IH. f_equal.
  unfold holds in H1. rewrite H1, map_map. reflexivity.
Qed.

Section Queue.
Variables (n : N) (fl : list FMsg) (ds : list (list Frag12)).
Hypothesis FOK : flight_ok n fl ds.

Lemma ds_ordered : dgs_ordered ds.
Proof using FOK. destruct FOK as (H1 & H2 & H3). split; [exact H2|]. rewrite H3. apply flight_ordered. exact H1. Qed.

Lemma queue_empty : queue_ok n n fl ds [] (fun _ => False) [].
Proof using FOK.
  constructor; [apply subseq_nil_l|constructor|]. intros d Hd _ [[]|(f & Hf & Hlt)].
  assert (K : In f (concat ds)) by (apply in_concat; eauto). destruct FOK as (_ & _ & H3). rewrite H3 in K.
  apply flight_frags_seq in K. lia.
Qed.

(** Inserting a delivered datagram. *)
Lemma queue_insert p have got rx d inc : queue_ok n p fl ds have got rx -> In d ds -> holds p d inc ->
  exists a o y, map (fun it => cmp_pair (hs_key it) (dkey d)) rx = repeat Lt a ++ repeat Eq o ++ repeat Gt y /\
    (o = 0%nat -> exists have', queue_ok n p fl ds have' (fun x => got x \/ x = d) (insert_at a inc rx)) /\
    ((0 < o)%nat -> exists have', queue_ok n p fl ds have' (fun x => got x \/ x = d) rx).
Proof using FOK.
  intros Q Hd Hi. destruct ds_ordered as [O1 O2]. destruct Q as [Q1 Q2 Q3].
  destruct (insert_place ds d (dgs_keys _ (conj O1 O2)) Hd have Q1) as (x & o & y & Hh & Ho & Hs & Hx & Hy). subst have.
  apply Forall2_app_inv_l in Q2. destruct Q2 as (rx1 & rx' & R1 & R2 & ->). apply Forall2_app_inv_l in R2. destruct R2 as (ro & ry & R2 & R3 & ->).
  assert (NE : forall z, In z x \/ In z y -> z <> []).
  { intros z Hz. rewrite Forall_forall in O1. apply O1. apply (subseq_in _ _ Hs). apply in_or_app. destruct Hz; [left|right; right]; assumption. }
  assert (C1 : map (fun it => cmp_pair (hs_key it) (dkey d)) rx1 = repeat Lt (length x)).
  { assert (NX : Forall (fun z => z <> []) x) by (apply Forall_forall; auto). clear - R1 Hx NX.
    induction R1 as [|e i x rx1 H1 H2 IH]; [reflexivity|]. inversion Hx; subst. inversion NX; subst. cbn. rewrite (holds_key p e) by assumption.
    f_equal; [assumption|auto]. }
  assert (C3 : map (fun it => cmp_pair (hs_key it) (dkey d)) ry = repeat Gt (length y)).
  { assert (NY : Forall (fun z => z <> []) y) by (apply Forall_forall; auto). clear - R3 Hy NY.
    induction R3 as [|e i y ry H1 H2 IH]; [reflexivity|]. inversion Hy; subst. inversion NY; subst. cbn. rewrite (holds_key p e) by assumption.
    f_equal; [apply cmp_pair_gt; assumption|auto]. }
  exists (length x), (length o), (length y). split; [|split].
  - rewrite !map_app, C1, C3. f_equal. f_equal. destruct Ho as [->| ->]; inversion R2 as [|? ? ? ? H1 H2]; subst; [reflexivity|].
    inversion H2; subst. cbn. rewrite (holds_key p d); [|rewrite Forall_forall in O1; auto|assumption].
    f_equal. apply cmp_pair_eq. reflexivity.
  - intros K. destruct Ho as [->| ->]; [|discriminate]. inversion R2; subst. cbn [app] in *. exists (x ++ d :: y). constructor.
    + exact Hs.
    + unfold insert_at. rewrite (Forall2_length _ _ _ R1), firstn_app, firstn_all, skipn_app, skipn_all, Nat.sub_diag. cbn [firstn skipn app].
      rewrite app_nil_r. apply Forall2_app; [exact R1|]. constructor; assumption.
    + intros z Hz Hf Hg. apply in_or_app. destruct Hg as [[Hg| ->]|Hg]; [|right; left; reflexivity|].
      * specialize (Q3 z Hz Hf (or_introl Hg)). apply in_app_or in Q3. cbn. tauto.
      * specialize (Q3 z Hz Hf (or_intror Hg)). apply in_app_or in Q3. cbn. tauto.
  - intros K. destruct Ho as [->| ->]; [cbn in K; lia|]. exists (x ++ [d] ++ y). constructor.
    + exact Hs.
    + apply Forall2_app; [exact R1|]. apply Forall2_app; assumption.
    + intros z Hz Hf [[Hg| ->]|Hg]; [apply Q3; auto| |apply Q3; auto]. apply in_or_app. right. left. reflexivity.
Qed.

Definition of_msg (p : N) (l : list Frag12) : list Frag12 := filter (fun f => f_seq f =? p) l.

Lemma frags_of_msg p : n <= p -> of_msg p (concat ds) =
  match nth_error fl (N.to_nat (p - n)) with Some m => msg_frags p m | None => [] end.
Proof using FOK.
  intros Hp. destruct FOK as (_ & _ & H3). rewrite H3. clear - Hp. unfold of_msg.
  revert n Hp. assert (G : forall fl n, filter (fun f => f_seq f =? p) (flight_frags n fl) =
    if p <? n then [] else match nth_error fl (N.to_nat (p - n)) with Some m => msg_frags p m | None => [] end).
  { clear. induction fl as [|m l IH]; intros n; cbn [flight_frags].
    - destruct (p <? n), (N.to_nat (p - n)); reflexivity.
    - rewrite filter_app, IH. destruct (p =? n) eqn:C.
      + assert (p = n) by lia. subst p. replace (n <? n) with false by lia. replace (n <? n + 1) with true by lia.
        rewrite N.sub_diag. cbn [N.to_nat nth_error]. rewrite app_nil_r. unfold msg_frags.
        assert (K : forall cs off, filter (fun f => f_seq f =? n) (frags_from (fm_type m) (len (fm_body m)) n off cs) = frags_from (fm_type m) (len (fm_body m)) n off cs).
        { induction cs as [|c cs IHc]; intros off; [reflexivity|]. cbn. rewrite N.eqb_refl, IHc. reflexivity. }
        apply K.
      + assert (K : forall cs off, filter (fun f => f_seq f =? p) (frags_from (fm_type m) (len (fm_body m)) n off cs) = []).
        { induction cs as [|c cs IHc]; intros off; [reflexivity|]. cbn. replace (n =? p) with false by lia. apply IHc. }
        unfold msg_frags at 1. rewrite K. cbn [app]. destruct (p <? n) eqn:C2.
        * replace (p <? n + 1) with true by lia. reflexivity.
        * replace (p <? n + 1) with false by lia. replace (N.to_nat (p - n)) with (S (N.to_nat (p - (n + 1)))) by lia. reflexivity. }
  intros n0 Hp. rewrite G. destruct (p <? n0) eqn:C; [|reflexivity]. exfalso. clear - Hp C. lia.
Qed.

Lemma blocks_apart : ForallOrdPairs (fun a b => forall x y, In x a -> In y b -> flt x y) ds.
Proof using FOK.
  destruct ds_ordered as [_ H]. clear FOK. induction ds as [|d l IH]; [constructor|]. cbn [concat] in H.
  apply FOP_app_inv in H. destruct H as (_ & H2 & H3). constructor; [|auto].
  apply Forall_forall. intros b Hb x y Hx Hy. apply H3; [exact Hx|]. apply in_concat. eauto.
Qed.
Lemma flt_irrefl x : ~ flt x x.
Proof. unfold flt. lia. Qed.
Lemma same_block f d d' : In d ds -> In d' ds -> In f d -> In f d' -> d = d'.
Proof using FOK.
  intros H1 H2 H3 H4. destruct (ForallOrdPairs_In blocks_apart _ _ H1 H2) as [H|[H|H]]; [exact H|..].
  - elim (flt_irrefl f). auto.
  - elim (flt_irrefl f). auto.
Qed.
Lemma ds_nodup : NoDup ds.
Proof using FOK.
  pose proof blocks_apart as H. destruct ds_ordered as [H1 _]. revert H H1. clear. induction ds as [|d l IH]; intros H H1; constructor.
  - inversion H as [|? ? K _]; subst. inversion H1 as [|? ? N _]; subst. intros Hin. rewrite Forall_forall in K. specialize (K _ Hin).
    destruct d as [|f d]; [congruence|]. apply (flt_irrefl f). apply K; left; reflexivity.
  - inversion H; subst. inversion H1; subst. auto.
Qed.

Lemma queue_frags p have got rx : queue_ok n p fl ds have got rx ->
  exists a g, concat have = a ++ of_msg p (concat have) ++ g /\
    Forall (fun f => f_seq f < p) a /\ Forall (fun f => p < f_seq f) g /\
    singles (concat rx) (map (mark p) (a ++ of_msg p (concat have) ++ g)) /\
    skip_while f_handled (all_frags rx) = map (mark p) (of_msg p (concat have) ++ g) /\
    skip_while f_handled (flat_map r_hs (firstn 50 (skip_while rec_handled (concat rx)))) =
      firstn 50 (map (mark p) (of_msg p (concat have) ++ g)).
Proof using FOK.
  intros [Q1 Q2 _]. destruct ds_ordered as [_ O2].
  assert (O : ForallOrdPairs seq_le (concat have)) by (apply flt_seq_le; eapply subseq_ordered; [apply subseq_concat; exact Q1|exact O2]).
  pose proof (split_at_seq p _ O) as S.
  set (a := filter (fun f => f_seq f <? p) (concat have)) in *. set (g := filter (fun f => p <? f_seq f) (concat have)) in *.
  assert (Ha : Forall (fun f => f_seq f < p) a).
  { apply Forall_forall. intros f Hf. apply filter_In in Hf. apply N.ltb_lt. apply Hf. }
  assert (Hg : Forall (fun f => p < f_seq f) g).
  { apply Forall_forall. intros f Hf. apply filter_In in Hf. apply N.ltb_lt. apply Hf. }
  exists a, g. split; [exact S|]. split; [exact Ha|]. split; [exact Hg|].
  pose proof (items_frags p have rx Q2) as I. rewrite S in I. fold (of_msg p (concat have)) in *. split; [exact I|].
  assert (E : skip_while f_handled (map (mark p) (a ++ of_msg p (concat have) ++ g)) = map (mark p) (of_msg p (concat have) ++ g)).
  { rewrite map_app, skip_while_app.
    - apply skip_while_none. apply Forall_forall. intros x Hx. apply in_map_iff in Hx. destruct Hx as (f & <- & Hf).
      unfold mark. cbn. apply in_app_or in Hf. destruct Hf as [Hf|Hf].
      + apply filter_In in Hf. destruct Hf as [_ Hf]. apply N.eqb_eq in Hf. rewrite Hf. apply N.ltb_irrefl.
      + rewrite Forall_forall in Hg. specialize (Hg _ Hf). apply N.ltb_ge. lia.
    - apply Forall_forall. intros x Hx. apply in_map_iff in Hx. destruct Hx as (f & <- & Hf).
      unfold mark. cbn. apply N.ltb_lt. rewrite Forall_forall in Ha. auto. }
  split.
  - unfold all_frags. rewrite (singles_frags _ _ I). exact E.
  - apply singles_skip in I. rewrite E in I. apply (singles_firstn 50) in I. rewrite (singles_frags _ _ I).
    apply skip_while_none. apply Forall_forall. intros x Hx. apply subseq_in with (1 := subseq_firstn _ _) in Hx.
    apply in_map_iff in Hx. destruct Hx as (f & <- & Hf).
    unfold mark. cbn. apply in_app_or in Hf. destruct Hf as [Hf|Hf].
    + apply filter_In in Hf. destruct Hf as [_ Hf]. apply N.eqb_eq in Hf. rewrite Hf. apply N.ltb_irrefl.
    + rewrite Forall_forall in Hg. specialize (Hg _ Hf). apply N.ltb_ge. lia.
Qed.

Lemma queue_msg_sub p have got rx : queue_ok n p fl ds have got rx -> n <= p ->
  subseq (of_msg p (concat have)) (match nth_error fl (N.to_nat (p - n)) with Some m => msg_frags p m | None => [] end).
Proof using FOK.
  intros Q Hp. rewrite <- (frags_of_msg p Hp). apply subseq_filter, subseq_concat. apply Q.
Qed.

(** All datagrams with fragments of the message were delivered. *)
Lemma queue_full p have got rx : queue_ok n p fl ds have got rx ->
  (forall d f, In d ds -> In f d -> f_seq f = p -> got d) -> of_msg p (concat have) = of_msg p (concat ds).
Proof using FOK.
  intros [Q1 _ Q3] Hg.
  assert (K : forall d, In d ds -> ~ In d have -> of_msg p d = []).
  { intros d Hd Hn. destruct (of_msg p d) as [|f l] eqn:E; [reflexivity|]. exfalso. apply Hn.
    assert (In f (of_msg p d)) as Hf by (rewrite E; left; reflexivity). apply filter_In in Hf. destruct Hf as [Hf1 Hf2]. apply N.eqb_eq in Hf2.
    apply Q3; [exact Hd|exists f; split; [exact Hf1|rewrite Hf2; apply N.le_refl]|]. left. eapply Hg; eassumption. }
  pose proof ds_nodup as ND. clear - Q1 K ND. unfold of_msg in *. induction Q1 as [|x a b H IH|x a b H IH]; [reflexivity|..]; inversion ND; subst; cbn [concat]; rewrite !filter_app.
  - rewrite (K x); [cbn; apply IH; auto|left; reflexivity|].
    + intros d Hd. apply K. right. exact Hd.
    + intros Hx. apply (subseq_in _ _ H) in Hx. auto.
  - f_equal. apply IH; [|assumption]. intros d Hd Hn. apply K; [right; exact Hd|]. intros [->|Hx]; auto.
Qed.

(** A message that is all there is consumed. *)
Lemma queue_take p have got rx m : queue_ok n p fl ds have got rx -> n <= p -> nth_error fl (N.to_nat (p - n)) = Some m ->
  of_msg p (concat have) = msg_frags p m -> queue_ok n (p + 1) fl ds have got (mark_run rx).
Proof using FOK.
  intros Q Hp Hm Hw. destruct (queue_frags _ _ _ _ Q) as (a & g & S & Ha & Hg & I & _ & _).
  assert (Hw1 : Forall (fun f => f_seq f = p /\ f_type f = fm_type m) (of_msg p (concat have))).
  { rewrite Hw. apply Forall_forall. intros f Hf. apply frags_from_in in Hf. tauto. }
  assert (Hw2 : of_msg p (concat have) <> []).
  { rewrite Hw. destruct FOK as (F1 & _). rewrite Forall_forall in F1. specialize (F1 m (nth_error_In _ _ Hm)).
    apply cut_ok in F1. destruct F1 as [F1 _]. unfold msg_frags. destruct (fm_cut m); [congruence|discriminate]. }
  pose proof (mark_message p (fm_type m) a _ g Ha Hw1 Hw2 Hg) as MM.
  assert (MR : mark_run rx = map (map (on_frags (fun f => set_f_handled (f_seq f <? p + 1) f))) rx).
  { unfold mark_run. rewrite (nested_items (fun f => set_f_handled (f_seq f <? p + 1) f)); [reflexivity|].
    unfold all_frags. rewrite (singles_frags _ _ I), MM, map_map. apply map_ext. intros f. reflexivity. }
  destruct Q as [Q1 Q2 Q3]. constructor.
  - exact Q1.
  - rewrite MR. clear - Q2. induction Q2 as [|d inc l l' H1 H2 IH]; cbn [map]; constructor; [|exact IH].
    unfold holds in *. rewrite map_map. clear - H1. revert d H1. induction inc as [|r inc IH]; intros [|f d] H; try discriminate; [reflexivity|].
    cbn [map] in *. injection H as H1 H. f_equal; [|apply IH; exact H]. unfold on_frags. cbn [r_hs set_r_hs]. rewrite H1. reflexivity.
  - intros d Hd (f & Hf & Hge) Hc. assert (X : exists f, In f d /\ p <= f_seq f) by (exists f; split; [exact Hf|lia]).
    destruct Hc as [Hc|(f' & Hf' & Hlt)]; [apply Q3; auto|].
    destruct (N.lt_total (f_seq f') p) as [Hl|[He|Hl]]; [apply Q3; eauto| |lia].
    assert (In f' (of_msg p (concat have))) as Hin.
    { rewrite Hw.
      assert (K : In f' (of_msg p (concat ds))) by (apply filter_In; split; [apply in_concat; eauto|apply N.eqb_eq; exact He]).
      rewrite frags_of_msg, Hm in K by exact Hp. exact K. }
    apply filter_In in Hin. destruct Hin as [Hin _]. apply in_concat in Hin. destruct Hin as (d' & Hd' & Hf'').
    replace d with d'; [exact Hd'|]. apply (same_block f'); auto. eapply subseq_in; eassumption.
Qed.

(** Dropping handled items. *)
Lemma queue_purge p have got rx : queue_ok n p fl ds have got rx -> exists have',
  queue_ok n p fl ds have' got (skip_while (forallb rec_handled) rx).
Proof using FOK.
  intros [Q1 Q2 Q3]. exists (skip_while (forallb (fun f => f_seq f <? p)) have).
  assert (SK : subseq (skip_while (forallb (fun f => f_seq f <? p)) have) have).
  { clear. induction have as [|d l IH]; cbn [skip_while]; [constructor|]. destruct (forallb _ d); [apply sub_skip; exact IH|apply subseq_refl]. }
  constructor.
  - eapply subseq_trans; [exact SK|exact Q1].
  - clear - Q2. induction Q2 as [|d inc l l' H1 H2 IH]; cbn [skip_while]; [constructor|].
    assert (E : forallb rec_handled inc = forallb (fun f => f_seq f <? p) d).
    { clear - H1. unfold holds in H1. revert d H1. induction inc as [|r inc IH]; intros [|f d] H; try discriminate; [reflexivity|].
      cbn [map] in H. injection H as H1 H. cbn [forallb]. rewrite (IH _ H). f_equal. unfold rec_handled. rewrite H1. cbn. apply andb_true_r. }
    rewrite E. destruct (forallb _ d); [exact IH|constructor; assumption].
  - intros d Hd (f & Hf & Hge) Hc. assert (K : In d have) by (apply Q3; eauto). clear - K Hf Hge.
    induction have as [|e l IH]; [destruct K|]. cbn [skip_while]. destruct (forallb _ e) eqn:C; [|exact K].
    destruct K as [->|K]; [|auto]. rewrite forallb_forall in C. specialize (C _ Hf). apply N.ltb_lt in C. lia.
Qed.
End Queue.
