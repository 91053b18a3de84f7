(** Exactness of the replay window. *)
From Verif Require Import Prelude PreludeFacts Window.
From Coq Require Import ZifyBool ZifyNat ZifyN.

(** ** Specification *)

(** A number is acceptable after [seen] was accepted: it is new, and less than
    64 below every accepted number (in particular below the largest). *)
Definition acceptable (seen : list N) (s : N) : Prop :=
  ~ In s seen /\ forall m, In m seen -> m < s + 64.

(** One record arriving: its number, and whether it turned out authentic.
    The window is consulted with [check], and [update] is called only when the
    check passed and the record was authentic. *)
Definition arrive (st : ReplayWindow * list N) (ev : N * bool) : ReplayWindow * list N :=
  let '(w, seen) := st in
  let '(s, authentic) := ev in
  if window_check w s && authentic then (window_update w s, s :: seen) else (w, seen).

Definition arrivals (evs : list (N * bool)) : ReplayWindow * list N :=
  fold_left arrive evs (window_new, []).

(** ** Invariant *)

Definition window_inv (w : ReplayWindow) (seen : list N) : Prop :=
  (forall i, 64 <= i -> N.testbit (w_bits w) i = false) /\
  (forall i, i < 64 -> (N.testbit (w_bits w) i = true <-> i <= w_max w /\ In (w_max w - i) seen)) /\
  (forall m, In m seen -> m <= w_max w) /\
  ((seen = [] /\ w_max w = 0) \/ In (w_max w) seen).

Lemma land_bit : forall b i, N.land b (N.shiftl 1 i) = 0 <-> N.testbit b i = false.
Proof.
  intros b i. split; intros H.
  - assert (E : N.testbit (N.land b (N.shiftl 1 i)) i = false) by (rewrite H; apply N.bits_0).
    rewrite N.land_spec, N.shiftl_spec_high' in E by lia. rewrite N.sub_diag in E. cbn in E.
    rewrite andb_true_r in E. exact E.
  - apply N.bits_inj; intros j. rewrite N.land_spec, N.bits_0.
    destruct (N.eq_dec j i) as [->|Hn]; [rewrite H; reflexivity|].
    destruct (N.ltb_spec j i).
    + rewrite N.shiftl_spec_low by lia. apply andb_false_r.
    + rewrite N.shiftl_spec_high' by lia.
      replace (N.testbit 1 (j - i)) with false; [apply andb_false_r|].
      symmetry. change 1 with (2^0). apply N.pow2_bits_false. lia.
Qed.

Lemma shiftl1_bit : forall i j, N.testbit (N.shiftl 1 i) j = (i =? j).
Proof.
  intros. rewrite N.shiftl_1_l. apply N.pow2_bits_eqb.
Qed.

Lemma testbit_1 : forall j, N.testbit 1 j = (j =? 0).
Proof. intros. change 1 with (2^0). rewrite N.pow2_bits_eqb. apply N.eqb_sym. Qed.

Lemma window_inv_new : window_inv window_new [].
Proof.
  unfold window_inv, window_new; cbn [w_max w_bits].
  split; [|split; [|split]].
  - intros; apply N.bits_0.
  - intros i Hi. rewrite N.bits_0. split; [discriminate|]. intros [_ []].
  - intros m [].
  - left; auto.
Qed.

Lemma window_check_spec : forall w seen s,
  window_inv w seen -> (window_check w s = true <-> acceptable seen s).
Proof.
  intros w seen s (Hhi & Hbit & Hle & Hmax). unfold window_check, acceptable.
  destruct (N.ltb_spec (w_max w) s).
  - split; [|reflexivity]. intros _. split.
    + intros Hin. specialize (Hle _ Hin). lia.
    + intros m Hm. specialize (Hle _ Hm). lia.
  - destruct (N.leb_spec 64 (w_max w - s)).
    + split; [discriminate|]. intros [Hn Hlt]. destruct Hmax as [[-> E]|Hin].
      * lia.
      * specialize (Hlt _ Hin). lia.
    + rewrite N.eqb_eq, land_bit.
      specialize (Hbit (w_max w - s)). replace (w_max w - (w_max w - s)) with s in Hbit by lia.
      split.
      * intros E. split.
        -- intros Hin. destruct Hbit as [_ Hb]; [lia|]. rewrite Hb in E; [discriminate|].
           split; [lia|assumption].
        -- intros m Hm. specialize (Hle _ Hm). lia.
      * intros [Hn _]. destruct (N.testbit (w_bits w) (w_max w - s)) eqn:E; [|reflexivity].
        exfalso. apply Hn. apply Hbit; [lia|reflexivity].
Qed.

Lemma window_update_inv : forall w seen s,
  window_inv w seen -> window_check w s = true -> window_inv (window_update w s) (s :: seen).
Proof.
  intros w seen s Hinv Hc. pose proof Hinv as (Hhi & Hbit & Hle & Hmax).
  apply (window_check_spec _ _ _ Hinv) in Hc. destruct Hc as [Hnew Hrec].
  unfold window_update. destruct (N.ltb_spec (w_max w) s) as [Hgt|Hng].
  - destruct (N.ltb_spec 63 (s - w_max w)).
    + split; [|split; [|split]]; cbn [w_max w_bits].
      * intros i Hi. rewrite testbit_1. lia.
      * intros i Hi. rewrite testbit_1, N.eqb_eq. split.
        -- intros ->. split; [lia|]. left; lia.
        -- intros [Hi2 [E|Hin]]; [lia|]. specialize (Hle _ Hin). lia.
      * intros m [<-|Hin]; [lia|]. specialize (Hle _ Hin). lia.
      * right; left; reflexivity.
    + split; [|split; [|split]]; cbn [w_max w_bits].
      * intros i Hi. rewrite N.lor_spec, testbit_1. unfold u64.
        rewrite N.mod_pow2_bits_high by lia. cbn. lia.
      * intros i Hi. rewrite N.lor_spec, testbit_1. unfold u64.
        rewrite N.mod_pow2_bits_low by lia.
        destruct (N.ltb_spec i (s - w_max w)).
        -- rewrite N.shiftl_spec_low by lia. cbn. rewrite N.eqb_eq. split.
           ++ intros ->. split; [lia|]. left; lia.
           ++ intros [Hi2 [E|Hin]]; [lia|]. specialize (Hle _ Hin). lia.
        -- rewrite N.shiftl_spec_high' by lia.
           replace (i =? 0) with false by lia. rewrite orb_false_r.
           rewrite Hbit by lia. replace (w_max w - (i - (s - w_max w))) with (s - i) by lia.
           split.
           ++ intros [A B]. split; [lia|right; assumption].
           ++ intros [A [E|B]]; [lia|]. split; [|assumption].
              specialize (Hle _ B). lia.
      * intros m [<-|Hin]; [lia|]. specialize (Hle _ Hin). lia.
      * right; left; reflexivity.
  - assert (Ho : w_max w - s < 64).
    { destruct Hmax as [[-> E]|Hin]; [lia|]. specialize (Hrec _ Hin). lia. }
    destruct (N.ltb_spec (w_max w - s) 64); [|lia].
    split; [|split; [|split]]; cbn [w_max w_bits].
    + intros i Hi. rewrite N.lor_spec, Hhi by lia. rewrite shiftl1_bit. lia.
    + intros i Hi. rewrite N.lor_spec, orb_true_iff, Hbit, shiftl1_bit, N.eqb_eq by lia.
      split.
      * intros [[A B]|<-]; [split; [lia|right; assumption]|]. split; [lia|left; lia].
      * intros [A [E|B]]; [right; lia|left; auto].
    + intros m [<-|Hin]; [lia|]. apply Hle; assumption.
    + right. destruct Hmax as [[-> E]|Hin]; [left; lia|right; assumption].
Qed.

Lemma arrive_inv : forall st ev,
  window_inv (fst st) (snd st) -> window_inv (fst (arrive st ev)) (snd (arrive st ev)).
Proof.
  intros [w seen] [s a] H; cbn in *. destruct (window_check w s) eqn:E; cbn; [|assumption].
  destruct a; cbn; [|assumption]. apply window_update_inv; assumption.
Qed.

Lemma arrivals_inv_gen : forall evs st,
  window_inv (fst st) (snd st) ->
  window_inv (fst (fold_left arrive evs st)) (snd (fold_left arrive evs st)).
Proof.
  induction evs; intros st H; cbn [fold_left]; [assumption|]. apply IHevs, arrive_inv, H.
Qed.

Lemma arrivals_inv : forall evs, window_inv (fst (arrivals evs)) (snd (arrivals evs)).
Proof. intros. apply arrivals_inv_gen. apply window_inv_new. Qed.

(** The check is exact after every history. *)
Lemma window_exact : forall evs s,
  window_check (fst (arrivals evs)) s = true <-> acceptable (snd (arrivals evs)) s.
Proof. intros. apply window_check_spec, arrivals_inv. Qed.

Lemma arrive_nodup : forall st ev,
  window_inv (fst st) (snd st) -> NoDup (snd st) -> NoDup (snd (arrive st ev)).
Proof.
  intros [w seen] [s a] H ND; cbn in *. destruct (window_check w s) eqn:E; cbn; [|assumption].
  destruct a; cbn; [|assumption]. constructor; [|assumption].
  apply (window_check_spec _ _ _ H) in E. apply E.
Qed.

Lemma arrivals_nodup : forall evs, NoDup (snd (arrivals evs)).
Proof.
  intros evs. unfold arrivals.
  assert (G : forall evs st, window_inv (fst st) (snd st) -> NoDup (snd st) ->
              NoDup (snd (fold_left arrive evs st))).
  { clear. induction evs; intros st H ND; cbn [fold_left]; [assumption|].
    apply IHevs; [apply arrive_inv; assumption|apply arrive_nodup; assumption]. }
  apply G; [apply window_inv_new|constructor].
Qed.
