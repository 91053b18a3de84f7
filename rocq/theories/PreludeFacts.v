(** Facts about the vocabulary of [Prelude]. *)
From Verif Require Import Prelude.
From Coq Require Import ZifyBool ZifyNat ZifyN.
Ltac Zify.zify_post_hook ::= Z.div_mod_to_equations.

Lemma bytes_ok_app : forall a b, bytes_ok (a ++ b) <-> bytes_ok a /\ bytes_ok b.
Proof. intros; unfold bytes_ok; apply Forall_app. Qed.

Lemma bytes_ok_cons : forall x l, bytes_ok (x :: l) <-> x < 256 /\ bytes_ok l.
Proof. intros; unfold bytes_ok; rewrite Forall_cons_iff; reflexivity. Qed.

Lemma bytes_ok_nil : bytes_ok [].
Proof. constructor. Qed.

Lemma bytes_ok_firstn : forall n l, bytes_ok l -> bytes_ok (firstn n l).
Proof. intros n l H. rewrite <- (firstn_skipn n l) in H. apply bytes_ok_app in H. tauto. Qed.

Lemma bytes_ok_skipn : forall n l, bytes_ok l -> bytes_ok (skipn n l).
Proof. intros n l H. rewrite <- (firstn_skipn n l) in H. apply bytes_ok_app in H. tauto. Qed.

Lemma bytes_okb_ok : forall l, bytes_okb l = true <-> bytes_ok l.
Proof.
  intros l; unfold bytes_okb, bytes_ok. rewrite forallb_forall, Forall_forall.
  unfold byte_okb, byte_ok. split; intros H x Hx; specialize (H x Hx); lia.
Qed.

Lemma be_length : forall k n, length (be k n) = k.
Proof. induction k; intros; cbn; [reflexivity|]. rewrite app_length, IHk; cbn; lia. Qed.

Lemma be_ok : forall k n, bytes_ok (be k n).
Proof.
  induction k; intros; cbn [be]; [constructor|].
  apply bytes_ok_app; split; [apply IHk|]. constructor; [unfold byte_ok; lia|constructor].
Qed.

Lemma fold_unbe_app : forall a b acc,
  fold_left (fun acc b => acc * 256 + b) (a ++ b) acc =
  fold_left (fun acc b => acc * 256 + b) b (fold_left (fun acc b => acc * 256 + b) a acc).
Proof. intros; apply fold_left_app. Qed.

Lemma unbe_app1 : forall a x, unbe (a ++ [x]) = unbe a * 256 + x.
Proof. intros; unfold unbe; rewrite fold_left_app; reflexivity. Qed.

Lemma pow256_S : forall k, 256 ^ N.of_nat (S k) = 256 * 256 ^ N.of_nat k.
Proof. intros. rewrite Nat2N.inj_succ, N.pow_succ_r'; reflexivity. Qed.

Lemma pow256_pos : forall k, 0 < 256 ^ N.of_nat k.
Proof. intros. apply N.neq_0_lt_0, N.pow_nonzero; discriminate. Qed.

Lemma unbe_be : forall k n, unbe (be k n) = n mod 256 ^ N.of_nat k.
Proof.
  induction k; intros n.
  - cbn. rewrite N.mod_1_r; reflexivity.
  - cbn [be]. rewrite unbe_app1, IHk, pow256_S.
    pose proof (pow256_pos k).
    rewrite N.mod_mul_r by lia. lia.
Qed.

Lemma unbe_be_small : forall k n, n < 256 ^ N.of_nat k -> unbe (be k n) = n.
Proof. intros. rewrite unbe_be. apply N.mod_small; assumption. Qed.

Lemma unbe_bound : forall l, bytes_ok l -> unbe l < 256 ^ N.of_nat (length l).
Proof.
  induction l as [|x l IH] using rev_ind; intros Hok.
  - cbn; lia.
  - apply bytes_ok_app in Hok as [Hl Hx]. inversion Hx; subst.
    rewrite unbe_app1, app_length; cbn [length].
    replace (length l + 1)%nat with (S (length l)) by lia.
    rewrite pow256_S. specialize (IH Hl). unfold byte_ok in *. lia.
Qed.

Lemma be_unbe : forall l, bytes_ok l -> be (length l) (unbe l) = l.
Proof.
  induction l as [|x l IH] using rev_ind; intros Hok; [reflexivity|].
  apply bytes_ok_app in Hok as [Hl Hx]. inversion Hx; subst. unfold byte_ok in *.
  rewrite app_length; cbn [length]. replace (length l + 1)%nat with (S (length l)) by lia.
  cbn [be]. rewrite unbe_app1.
  replace ((unbe l * 256 + x) / 256) with (unbe l) by lia.
  replace ((unbe l * 256 + x) mod 256) with x by lia.
  rewrite IH by assumption; reflexivity.
Qed.

Lemma be_inj : forall k a b,
  a < 256 ^ N.of_nat k -> b < 256 ^ N.of_nat k -> be k a = be k b -> a = b.
Proof.
  intros k a b Ha Hb E. rewrite <- (unbe_be_small k a), <- (unbe_be_small k b) by assumption.
  rewrite E; reflexivity.
Qed.

(** [take] *)
Lemma take_some : forall A n (l h r : list A),
  take n l = Some (h, r) <-> l = h ++ r /\ length h = n.
Proof.
  intros A n l h r; unfold take. destruct (Nat.leb_spec n (length l)); split; intros E.
  - inversion E; subst. split; [symmetry; apply firstn_skipn|]. apply firstn_length_le; assumption.
  - destruct E as [-> E]. subst n. rewrite firstn_app, skipn_app, Nat.sub_diag.
    cbn. rewrite firstn_all, skipn_all, app_nil_r; reflexivity.
  - discriminate.
  - destruct E as [-> E]. rewrite app_length in *; lia.
Qed.

Lemma take_app : forall A (h r : list A), take (length h) (h ++ r) = Some (h, r).
Proof. intros. apply take_some; auto. Qed.

Lemma take_app_n : forall A n (h r : list A), length h = n -> take n (h ++ r) = Some (h, r).
Proof. intros; subst; apply take_app. Qed.

Lemma take_none : forall A n (l : list A), take n l = None <-> (length l < n)%nat.
Proof. intros; unfold take. destruct (Nat.leb_spec n (length l)); split; intros; try lia; try discriminate; reflexivity. Qed.

Lemma p_be_some : forall k l v r,
  p_be k l = Some (v, r) <-> exists h, l = h ++ r /\ length h = k /\ v = unbe h.
Proof.
  intros; unfold p_be. destruct (take k l) as [[h r']|] eqn:E.
  - apply take_some in E as [-> <-]. split.
    + intros E; inversion E; subst; eauto.
    + intros (h' & E1 & E2 & ->). apply app_inv_length in E1 || idtac.
      assert (h = h' /\ r' = r) as [-> ->]; [|reflexivity].
      clear -E1 E2. revert h' E1 E2. induction h as [|a h IH]; intros [|b h'] E1 E2; cbn in *; try discriminate.
      * auto.
      * inversion E1; subst. destruct (IH h') as [-> ->]; auto.
  - split; [discriminate|]. intros (h & -> & E2 & _). apply take_none in E. rewrite app_length in E. lia.
Qed.

Lemma p_be_app : forall k n r, p_be k (be k n ++ r) = Some (n mod 256 ^ N.of_nat k, r).
Proof. intros; unfold p_be. rewrite take_app_n by apply be_length. rewrite unbe_be; reflexivity. Qed.

Lemma p_be_app_small : forall k n r, n < 256 ^ N.of_nat k -> p_be k (be k n ++ r) = Some (n, r).
Proof. intros. rewrite p_be_app, N.mod_small by assumption; reflexivity. Qed.

Lemma p_be_inv : forall k l v r, bytes_ok l -> p_be k l = Some (v, r) ->
  l = be k v ++ r /\ v < 256 ^ N.of_nat k /\ bytes_ok r.
Proof.
  intros k l v r Hok E. apply p_be_some in E as (h & -> & <- & ->).
  apply bytes_ok_app in Hok as [Hh Hr].
  rewrite be_unbe by assumption. auto using unbe_bound.
Qed.

Lemma beqb_eq : forall a b, beqb a b = true <-> a = b.
Proof.
  induction a; intros [|y b]; cbn; split; intros E; try discriminate; auto.
  - apply andb_true_iff in E as [E1 E2]. apply N.eqb_eq in E1. apply IHa in E2. subst; auto.
  - inversion E; subst. rewrite N.eqb_refl. apply IHa; reflexivity.
Qed.

Lemma beqb_refl : forall a, beqb a a = true.
Proof. intros; apply beqb_eq; reflexivity. Qed.

Lemma beqb_neq : forall a b, beqb a b = false <-> a <> b.
Proof.
  intros. destruct (beqb a b) eqn:E.
  - apply beqb_eq in E. split; [discriminate|tauto].
  - split; [|reflexivity]. intros _ ->. rewrite beqb_refl in E; discriminate.
Qed.

Lemma memN_In : forall x l, memN x l = true <-> In x l.
Proof.
  intros. unfold memN. rewrite existsb_exists. split.
  - intros (y & Hy & E). apply N.eqb_eq in E. subst; auto.
  - intros H. exists x. split; auto. apply N.eqb_refl.
Qed.

Lemma len_app : forall A (a b : list A), len (a ++ b) = len a + len b.
Proof. intros; unfold len; rewrite app_length; lia. Qed.
Lemma len_cons : forall A (x : A) l, len (x :: l) = 1 + len l.
Proof. intros; unfold len; cbn [length]; lia. Qed.
Lemma len_be : forall k n, len (be k n) = N.of_nat k.
Proof. intros; unfold len; rewrite be_length; reflexivity. Qed.

(** Split of equal-length prefixes. *)
Lemma app_inj_len : forall A (a b c d : list A),
  length a = length c -> a ++ b = c ++ d -> a = c /\ b = d.
Proof.
  induction a; intros b [|x c] d HL E; cbn in *; try discriminate; auto.
  inversion E; subst. destruct (IHa b c d) as [-> ->]; auto.
Qed.

Lemma app_inj_len_r : forall A (a b c d : list A),
  length b = length d -> a ++ b = c ++ d -> a = c /\ b = d.
Proof.
  intros A a b c d HL E. apply app_inj_len; auto.
  apply (f_equal (@length A)) in E. rewrite !app_length in E. lia.
Qed.
