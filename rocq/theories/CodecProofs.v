(** Facts about the generic codec pieces of [Codec]. *)
From Verif Require Import Prelude PreludeFacts Codec.
From Coq Require Import ZifyBool ZifyNat ZifyN.
Ltac Zify.zify_post_hook ::= Z.div_mod_to_equations.

Lemma p_u8_app : forall n r, n < 256 -> p_u8 (be 1 n ++ r) = Some (n, r).
Proof. intros. apply p_be_app_small. cbn; lia. Qed.
Lemma p_u16_app : forall n r, n < 65536 -> p_u16 (be 2 n ++ r) = Some (n, r).
Proof. intros. apply p_be_app_small. cbn; lia. Qed.
Lemma p_u24_app : forall n r, n < 16777216 -> p_u24 (be 3 n ++ r) = Some (n, r).
Proof. intros. apply p_be_app_small. cbn; lia. Qed.
Lemma p_u48_app : forall n r, n < 281474976710656 -> p_u48 (be 6 n ++ r) = Some (n, r).
Proof. intros. apply p_be_app_small. cbn; lia. Qed.

Lemma p_u8_inv : forall l v r, bytes_ok l -> p_u8 l = Some (v, r) ->
  l = be 1 v ++ r /\ v < 256 /\ bytes_ok r.
Proof. intros l v r H E. apply p_be_inv in E; auto. Qed.
Lemma p_u16_inv : forall l v r, bytes_ok l -> p_u16 l = Some (v, r) ->
  l = be 2 v ++ r /\ v < 65536 /\ bytes_ok r.
Proof. intros l v r H E. apply p_be_inv in E; auto. Qed.
Lemma p_u24_inv : forall l v r, bytes_ok l -> p_u24 l = Some (v, r) ->
  l = be 3 v ++ r /\ v < 16777216 /\ bytes_ok r.
Proof. intros l v r H E. apply p_be_inv in E; auto. Qed.
Lemma p_u48_inv : forall l v r, bytes_ok l -> p_u48 l = Some (v, r) ->
  l = be 6 v ++ r /\ v < 281474976710656 /\ bytes_ok r.
Proof. intros l v r H E. apply p_be_inv in E; auto. Qed.

Lemma take_inv : forall n (l h r : bytes), bytes_ok l -> take n l = Some (h, r) ->
  l = h ++ r /\ length h = n /\ bytes_ok h /\ bytes_ok r.
Proof.
  intros n l h r H E. apply take_some in E as [-> E]. apply bytes_ok_app in H. tauto.
Qed.

(** ** Vectors *)
Lemma p_vec_app : forall k v r, len v < 256 ^ N.of_nat k ->
  p_vec k (s_vec k v ++ r) = Some (v, r).
Proof.
  intros k v r H. unfold p_vec, s_vec. rewrite <- app_assoc, p_be_app_small by assumption.
  unfold len. rewrite Nat2N.id. apply take_app.
Qed.

Lemma p_vec_inv : forall k l v r, bytes_ok l -> p_vec k l = Some (v, r) ->
  l = s_vec k v ++ r /\ len v < 256 ^ N.of_nat k /\ bytes_ok v /\ bytes_ok r.
Proof.
  intros k l v r H E. unfold p_vec in E.
  destruct (p_be k l) as [[n r']|] eqn:E1; [|discriminate].
  apply p_be_inv in E1 as (-> & Hn & Hr'); auto.
  apply take_inv in E as (-> & HL & Hv & Hr); auto.
  assert (len v = n) by (unfold len; lia). subst n.
  unfold s_vec. rewrite <- app_assoc. auto.
Qed.

Lemma s_vec_length : forall k v, length (s_vec k v) = (k + length v)%nat.
Proof. intros; unfold s_vec; rewrite app_length, be_length; reflexivity. Qed.

Lemma s_vec_ok : forall k v, bytes_ok v -> bytes_ok (s_vec k v).
Proof. intros; unfold s_vec. apply bytes_ok_app; split; auto using be_ok. Qed.

(** ** Fixed-width items *)
Lemma s_items_length : forall k vs, length (s_items k vs) = (k * length vs)%nat.
Proof.
  induction vs; cbn [s_items flat_map length]; [lia|].
  rewrite app_length, be_length. unfold s_items in IHvs. lia.
Qed.

Lemma s_items_ok : forall k vs, bytes_ok (s_items k vs).
Proof.
  induction vs; cbn; [constructor|]. apply bytes_ok_app; split; auto using be_ok.
Qed.

Lemma p_items_s : forall k keep vs fuel, (0 < k)%nat ->
  Forall (fun v => v < 256 ^ N.of_nat k) vs -> (length (s_items k vs) <= fuel)%nat ->
  p_items fuel k keep (s_items k vs) = Some (filter keep vs).
Proof.
  intros k keep vs; induction vs as [|v vs IH]; intros fuel Hk Hok HL.
  - destruct fuel; reflexivity.
  - inversion Hok as [|? ? Hv Hvs]; subst. rewrite s_items_length in HL. cbn [length] in HL.
    cbn [s_items flat_map]. change (flat_map (be k) vs) with (s_items k vs).
    destruct fuel as [|f]; [lia|].
    destruct (be k v ++ s_items k vs) eqn:E.
    + apply app_eq_nil in E as [E _]. apply (f_equal (@length N)) in E. rewrite be_length in E; cbn in E; lia.
    + cbn [p_items]. rewrite <- E. rewrite p_be_app_small by assumption.
      rewrite IH by (try assumption; rewrite s_items_length; lia). reflexivity.
Qed.

Lemma p_items_inv : forall k keep fuel l vs, bytes_ok l -> p_items fuel k keep l = Some vs ->
  exists all, l = s_items k all /\ vs = filter keep all /\
              Forall (fun v => v < 256 ^ N.of_nat k) all.
Proof.
  intros k keep fuel; induction fuel as [|f IH]; intros l vs Hok E; destruct l as [|x l].
  - inversion E; subst. exists []. auto.
  - discriminate.
  - inversion E; subst. exists []. auto.
  - cbn [p_items] in E. destruct (p_be k (x :: l)) as [[v r]|] eqn:E1; [|discriminate].
    apply p_be_inv in E1 as (El & Hv & Hr); auto.
    destruct (p_items f k keep r) as [vs'|] eqn:E2; [|discriminate].
    apply IH in E2 as (all & -> & -> & Hall); auto.
    inversion E; subst. exists (v :: all). rewrite El. cbn. auto.
Qed.

Lemma filter_all : forall A (keep : A -> bool) l,
  Forall (fun x => keep x = true) l -> filter keep l = l.
Proof. induction 1; cbn; [reflexivity|]. rewrite H, IHForall; reflexivity. Qed.

Lemma p_list_s : forall k keep cap vs, (0 < k)%nat ->
  Forall (fun v => v < 256 ^ N.of_nat k) vs -> (length (filter keep vs) <= cap)%nat ->
  p_list k keep cap (s_items k vs) = Some (filter keep vs).
Proof.
  intros. unfold p_list. rewrite p_items_s by auto.
  destruct (Nat.leb_spec (length (filter keep vs)) cap); [reflexivity|lia].
Qed.

Lemma p_list_inv : forall k keep cap l vs, bytes_ok l -> p_list k keep cap l = Some vs ->
  (length vs <= cap)%nat /\ exists all, l = s_items k all /\ vs = filter keep all /\
              Forall (fun v => v < 256 ^ N.of_nat k) all.
Proof.
  intros k keep cap l vs Hok E. unfold p_list in E.
  destruct (p_items (length l) k keep l) as [vs'|] eqn:E1; [|discriminate].
  destruct (Nat.leb_spec (length vs') cap); inversion E; subst.
  split; auto. eapply p_items_inv; eauto.
Qed.

Lemma p_list1_s : forall k keep cap vs, (0 < k)%nat ->
  Forall (fun v => v < 256 ^ N.of_nat k) vs -> (0 < length (filter keep vs) <= cap)%nat ->
  p_list1 k keep cap (s_items k vs) = Some (filter keep vs).
Proof.
  intros. unfold p_list1. rewrite p_list_s by (auto; lia).
  destruct (filter keep vs); [cbn in *; lia|reflexivity].
Qed.

Lemma p_list1_inv : forall k keep cap l vs, p_list1 k keep cap l = Some vs ->
  vs <> [] /\ p_list k keep cap l = Some vs.
Proof.
  intros k keep cap l vs E. unfold p_list1 in E.
  destruct (p_list k keep cap l) as [[|x t]|]; inversion E; subst; split; congruence.
Qed.

Lemma p_items_kept : forall k keep fuel l vs, p_items fuel k keep l = Some vs ->
  Forall (fun v => keep v = true) vs.
Proof.
  intros k keep fuel; induction fuel as [|f IH]; intros l vs E; destruct l as [|x l];
    try discriminate; try (inversion E; constructor).
  cbn [p_items] in E. destruct (p_be k (x :: l)) as [[v r]|]; [|discriminate].
  destruct (p_items f k keep r) as [vs'|] eqn:E2; [|discriminate].
  inversion E; subst. destruct (keep v) eqn:K; eauto.
Qed.

Lemma p_list_kept : forall k keep cap l vs, p_list k keep cap l = Some vs ->
  Forall (fun v => keep v = true) vs.
Proof.
  intros k keep cap l vs E. unfold p_list in E.
  destruct (p_items (length l) k keep l) as [vs'|] eqn:E1; [|discriminate].
  destruct (Nat.leb (length vs') cap); inversion E; subst. eauto using p_items_kept.
Qed.

(** ** Extensions *)
Definition ext_ok (e : N * bytes) : Prop :=
  fst e < 65536 /\ len (snd e) < 65536 /\ bytes_ok (snd e).

Lemma p_ext_app : forall e r, fst e < 65536 -> len (snd e) < 65536 ->
  p_ext (s_ext e ++ r) = Some (e, r).
Proof.
  intros [t d] r Ht Hd. cbn [fst snd] in *. unfold p_ext, s_ext. cbn [fst snd].
  rewrite <- app_assoc, p_u16_app by assumption. rewrite p_vec_app by (cbn; lia). reflexivity.
Qed.

Lemma p_ext_inv : forall l e r, bytes_ok l -> p_ext l = Some (e, r) ->
  l = s_ext e ++ r /\ ext_ok e /\ bytes_ok r.
Proof.
  intros l e r H E. unfold p_ext in E.
  destruct (p_u16 l) as [[t l1]|] eqn:E1; [|discriminate].
  apply p_u16_inv in E1 as (-> & Ht & H1); auto.
  destruct (p_vec 2 l1) as [[d l2]|] eqn:E2; [|discriminate].
  apply p_vec_inv in E2 as (-> & Hd & H2 & H3); auto.
  inversion E; subst. unfold s_ext, ext_ok. cbn [fst snd]. rewrite <- app_assoc.
  repeat split; auto.
Qed.

Lemma s_ext_length : forall e, length (s_ext e) = (4 + length (snd e))%nat.
Proof. intros; unfold s_ext. rewrite app_length, be_length, s_vec_length; lia. Qed.

Lemma s_exts_ok : forall es, Forall ext_ok es -> bytes_ok (s_exts es).
Proof.
  induction 1 as [|e es (He1 & He2 & He3) Hes IH]; cbn [s_exts flat_map]; [constructor|].
  apply bytes_ok_app; split; auto. unfold s_ext. apply bytes_ok_app; split; auto using be_ok, s_vec_ok.
Qed.

(** The kept extensions, and what happens on repetition. *)
Definition kept (keep : N -> bool) (es : list (N * bytes)) : list (N * bytes) :=
  filter (fun e => keep (fst e)) es.

Lemma p_exts_loop_cons : forall f keep (e : N * bytes) (es : bytes) (acc : list (N * bytes)),
  fst e < 65536 -> len (snd e) < 65536 ->
  p_exts_loop (S f) keep (s_ext e ++ es) acc =
  if keep (fst e) then
    if memN (fst e) (map fst acc) then None else p_exts_loop f keep es (e :: acc)
  else p_exts_loop f keep es acc.
Proof.
  intros f keep e es acc H1 H2.
  destruct (s_ext e ++ es) eqn:E.
  - apply (f_equal (@length N)) in E. rewrite app_length, s_ext_length in E. cbn in E; lia.
  - cbn [p_exts_loop]. rewrite <- E, p_ext_app by assumption. reflexivity.
Qed.

Lemma p_exts_loop_s : forall keep es fuel acc,
  Forall ext_ok es -> (length (s_exts es) <= fuel)%nat ->
  NoDup (map fst acc ++ map fst (kept keep es)) ->
  p_exts_loop fuel keep (s_exts es) acc = Some (rev acc ++ kept keep es).
Proof.
  intros keep es; induction es as [|e es IH]; intros fuel acc Hok HL HN.
  - cbn. destruct fuel; cbn; rewrite app_nil_r; reflexivity.
  - inversion Hok as [|? ? (He1 & He2 & He3) Hes]; subst.
    cbn [s_exts flat_map] in *. change (flat_map s_ext es) with (s_exts es) in *.
    rewrite app_length, s_ext_length in HL. destruct fuel as [|f]; [lia|].
    rewrite p_exts_loop_cons by assumption.
    unfold kept in *. cbn [filter] in *. destruct (keep (fst e)) eqn:K; rewrite ?K in *.
    + cbn [map] in HN.
      destruct (memN (fst e) (map fst acc)) eqn:M.
      * apply memN_In in M. apply NoDup_remove_2 in HN. exfalso; apply HN.
        apply in_app_iff; auto.
      * rewrite IH; auto; [|lia|].
        -- cbn [rev]. rewrite <- app_assoc. reflexivity.
        -- cbn [map app]. apply NoDup_remove in HN as [HN1 HN2].
           constructor; auto.
    + apply IH; auto; lia.
Qed.

Lemma p_exts_loop_dup : forall keep es fuel acc,
  Forall ext_ok es -> NoDup (map fst acc) ->
  ~ NoDup (map fst acc ++ map fst (kept keep es)) ->
  p_exts_loop fuel keep (s_exts es) acc = None.
Proof.
  intros keep es; induction es as [|e es IH]; intros fuel acc Hok HA HN.
  - exfalso; apply HN. cbn. rewrite app_nil_r. assumption.
  - inversion Hok as [|? ? (He1 & He2 & He3) Hes]; subst.
    cbn [s_exts flat_map]. change (flat_map s_ext es) with (s_exts es).
    destruct fuel as [|f].
    { destruct (s_ext e ++ s_exts es) eqn:E; [|reflexivity].
      apply (f_equal (@length N)) in E. rewrite app_length, s_ext_length in E. cbn in E; lia. }
    rewrite p_exts_loop_cons by assumption.
    unfold kept in *. cbn [filter] in *. destruct (keep (fst e)) eqn:K; rewrite ?K in *.
    + destruct (memN (fst e) (map fst acc)) eqn:M; [reflexivity|].
      apply IH; auto.
      * cbn. constructor; auto. intros HI. apply memN_In in HI. congruence.
      * cbn [map app] in *. intros HN'. apply HN.
        inversion HN'; subst.
        apply NoDup_Add with (a := fst e) (l := map fst acc ++ map fst (filter (fun e0 => keep (fst e0)) es)); auto.
        apply Add_app.
    + apply IH; auto.
Qed.

Lemma p_exts_s : forall keep es, Forall ext_ok es -> NoDup (map fst (kept keep es)) ->
  p_exts keep (s_exts es) = Some (kept keep es).
Proof. intros. unfold p_exts. rewrite p_exts_loop_s by (auto; lia). reflexivity. Qed.

Lemma p_exts_dup : forall keep es, Forall ext_ok es -> ~ NoDup (map fst (kept keep es)) ->
  p_exts keep (s_exts es) = None.
Proof. intros. unfold p_exts. apply p_exts_loop_dup; auto. constructor. Qed.

Lemma p_exts_loop_inv : forall keep fuel l acc es', bytes_ok l ->
  NoDup (map fst acc) ->
  p_exts_loop fuel keep l acc = Some es' ->
  exists es, l = s_exts es /\ Forall ext_ok es /\ es' = rev acc ++ kept keep es /\
             NoDup (map fst acc ++ map fst (kept keep es)).
Proof.
  intros keep fuel; induction fuel as [|f IH]; intros l acc es' Hok HA E; destruct l as [|x l];
    try discriminate.
  - inversion E; subst. exists []. cbn. rewrite !app_nil_r. repeat split; auto.
  - inversion E; subst. exists []. cbn. rewrite !app_nil_r. repeat split; auto.
  - cbn [p_exts_loop] in E. destruct (p_ext (x :: l)) as [[e r]|] eqn:E1; [|discriminate].
    apply p_ext_inv in E1 as (El & He & Hr); auto.
    destruct (keep (fst e)) eqn:K.
    + destruct (memN (fst e) (map fst acc)) eqn:M; [discriminate|].
      apply IH in E as (es & -> & Hes & -> & HN); auto.
      * exists (e :: es). rewrite El. cbn [s_exts flat_map]. unfold kept in *. cbn [filter].
        rewrite K. cbn [rev map] in *. rewrite <- app_assoc. repeat split; auto.
        cbn [app] in HN. inversion HN; subst.
        eapply NoDup_Add; [apply Add_app|]. auto.
      * cbn. constructor; auto. intros HI. apply memN_In in HI. congruence.
    + apply IH in E as (es & -> & Hes & -> & HN); auto.
      exists (e :: es). rewrite El. unfold kept in *. cbn [filter]. rewrite K.
      repeat split; auto.
Qed.

Lemma p_exts_inv : forall keep l es', bytes_ok l -> p_exts keep l = Some es' ->
  exists es, l = s_exts es /\ Forall ext_ok es /\ es' = kept keep es /\
             NoDup (map fst (kept keep es)).
Proof.
  intros keep l es' H E. apply p_exts_loop_inv in E as (es & ? & ? & ? & ?); auto.
  - exists es; auto.
  - constructor.
Qed.

(** ** Lists of vectors *)
Lemma p_vecs_s : forall k minl vs fuel, (0 < k)%nat ->
  Forall (fun v => len v < 256 ^ N.of_nat k /\ (minl <= length v)%nat) vs ->
  (length (s_vecs k vs) <= fuel)%nat ->
  p_vecs fuel k minl (s_vecs k vs) = Some vs.
Proof.
  intros k minl vs; induction vs as [|v vs IH]; intros fuel Hk Hok HL.
  - destruct fuel; reflexivity.
  - inversion Hok as [|? ? [Hv1 Hv2] Hvs]; subst.
    cbn [s_vecs flat_map] in *. change (flat_map (s_vec k) vs) with (s_vecs k vs) in *.
    rewrite app_length, s_vec_length in HL. destruct fuel as [|f]; [lia|].
    destruct (s_vec k v ++ s_vecs k vs) eqn:E.
    + apply (f_equal (@length N)) in E. rewrite app_length, s_vec_length in E. cbn in E; lia.
    + cbn [p_vecs]. rewrite <- E, p_vec_app by assumption.
      destruct (Nat.ltb_spec (length v) minl); [lia|]. rewrite IH by (auto; lia). reflexivity.
Qed.

Lemma p_vecs_inv : forall k minl fuel l vs, bytes_ok l -> p_vecs fuel k minl l = Some vs ->
  l = s_vecs k vs /\
  Forall (fun v => len v < 256 ^ N.of_nat k /\ (minl <= length v)%nat /\ bytes_ok v) vs.
Proof.
  intros k minl fuel; induction fuel as [|f IH]; intros l vs Hok E; destruct l as [|x l];
    try discriminate; try (inversion E; subst; cbn; auto; fail).
  cbn [p_vecs] in E. destruct (p_vec k (x :: l)) as [[v r]|] eqn:E1; [|discriminate].
  apply p_vec_inv in E1 as (El & Hv & Hv' & Hr); auto.
  destruct (Nat.ltb_spec (length v) minl) as [|HM]; [discriminate|].
  destruct (p_vecs f k minl r) as [vs'|] eqn:E2; [|discriminate].
  apply IH in E2 as (-> & Hvs); auto. inversion E; subst. rewrite El. cbn. auto.
Qed.
