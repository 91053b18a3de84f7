(** C08: cutting a datagram into records.

    [whole12 r] / [whole13 r]: the bytes [r] are one record, header and body, by the
    length its header declares.  [short12 t] / [short13 t]: no record can be cut off
    the front of [t].  [feed parse room rs e]: give the records [rs] to [parse] one
    after the other, keep what it accepts, at most [room] of them, and end with [e]. *)
From Verif Require Import Prelude PreludeFacts Types Codec12 Record12 Record13 Monad MonadFacts Env Config
  Engine12 Engine12Frame Client12 Server12 Context12 Toy History12 Conn12 Engine13 Client13 Server13 Frame13
  History13 Lift13 Send13Proofs Rx13Proofs Conn13.

Definition declared (at_ : nat) (r : bytes) : nat := N.to_nat (unbe (firstn 2 (skipn at_ r))).

(** ** Specification *)

(** DTLS 1.2: 13 bytes of header, the length in the last two. *)
Definition whole12 (r : bytes) : Prop := (13 <= length r)%nat /\ length r = (13 + declared 11 r)%nat.
Definition short12 (t : bytes) : Prop := (length t < 13)%nat \/ (length t < 13 + declared 11 t)%nat.

(** DTLS 1.3: a plaintext record as before; a protected one has a header of 2 to 5
    bytes, [uhdr_len], and, if the length bit is set, its length in the last two
    bytes of the header, otherwise it extends to the end of the datagram. *)
Definition whole13 (last : bool) (r : bytes) : Prop :=
  if is_ct_header (hd 0 r)
  then flag_c (hd 0 r) = false /\ (uhdr_len (hd 0%N r) <= length r)%nat /\ (2 <= length r)%nat /\
       if flag_l (hd 0 r) then length r = (uhdr_len (hd 0%N r) + declared (1 + seq_len (hd 0%N r)) r)%nat
       else last = true
  else whole12 r.
Definition short13 (t : bytes) : Prop :=
  if is_ct_header (hd 0 t)
  then flag_c (hd 0 t) = true \/ (length t < 2)%nat \/ (length t < uhdr_len (hd 0%N t))%nat \/
       (flag_l (hd 0 t) = true /\ (length t < uhdr_len (hd 0%N t) + declared (1 + seq_len (hd 0%N t)) t)%nat)
  else short12 t.
Fixpoint all_whole13 (rs : list bytes) (tail : bytes) : Prop :=
  match rs with
  | [] => True
  | r :: rest => whole13 (is_nil rest && is_nil tail) r /\ all_whole13 rest tail
  end.

Fixpoint feed {S} (parse : bytes -> M S (option Rec12)) (room : nat) (rs : list bytes)
  (e : M S (list Rec12)) : M S (list Rec12) :=
  match rs with
  | [] => e
  | r :: rest =>
    let! o := parse r in
    match o with
    | None => feed parse room rest e
    | Some x => match room with
                | O => fail ETransient
                | S room' => let! xs := feed parse room' rest e in ret (x :: xs)
                end
    end
  end.

Lemma feed_bound {S} (parse : bytes -> M S (option Rec12)) e : (forall s, wp e (fun r _ => r = Ok [] \/ r = Err ETransient) s) ->
  forall rs room s, wp (feed parse room rs e) (fun r _ => match r with Ok xs => (length xs <= room)%nat | _ => True end) s.
Proof.
  intros He. induction rs as [|r rs IH]; intros room s; cbn [feed].
  - eapply wp_mono; [apply He|]. intros x s' [-> | ->]; [cbn; lia|exact I].
  - apply wp_bind. eapply wp_mono with (P := fun _ _ => True); [exact I|]. intros [[x|]|e0|n] s' _; [|apply IH|exact I|exact I].
    destruct room as [|room]; [exact I|]. apply wp_bind. wpuse (IH room s'). intros [xs|e0|n] s'' H; auto.
    cbn. lia.
Qed.

(** ** DTLS 1.2 *)

Lemma split12 E : forall fuel p, (length p <= fuel)%nat -> exists rs tail,
  p = concat rs ++ tail /\ Forall whole12 rs /\ (tail = [] \/ (tail <> [] /\ short12 tail)) /\
  forall room s, parse_loop E fuel room p s =
    feed (rec_parse E) room rs (if is_nil tail then ret [] else fail ETransient) s.
Proof.
  induction fuel as [|fuel IH]; intros p Hf.
  - destruct p as [|b p]; [|cbn in Hf; lia]. exists [], []. repeat split; auto.
  - destruct p as [|b p0].
    { exists [], []. repeat split; auto. }
    remember (b :: p0) as p eqn:Hp. assert (Hne : p <> []) by (rewrite Hp; discriminate).
    assert (Hstep : forall room s, parse_loop E (S fuel) room p s =
      (if Nat.ltb (length p) 13 then fail ETransient
       else if Nat.ltb (length p) (13 + declared 11 p) then fail ETransient
       else let! o := rec_parse E (firstn (13 + declared 11 p) p) in
            match o with
            | None => parse_loop E fuel room (skipn (13 + declared 11 p) p)
            | Some r => match room with
                        | O => fail ETransient
                        | S room' => let! rs := parse_loop E fuel room' (skipn (13 + declared 11 p) p) in ret (r :: rs)
                        end
            end) s) by (intros; rewrite Hp; reflexivity).
    clear Hp b p0.
    destruct (Nat.ltb (length p) 13) eqn:H1.
    { exists [], p. apply Nat.ltb_lt in H1. split; [reflexivity|]. split; [constructor|].
      split; [right; split; [exact Hne|left; exact H1]|]. destruct p; [congruence|]. exact Hstep. }
    apply Nat.ltb_ge in H1. destruct (Nat.ltb (length p) (13 + declared 11 p)) eqn:H2.
    { exists [], p. apply Nat.ltb_lt in H2. split; [reflexivity|]. split; [constructor|].
      split; [right; split; [exact Hne|right; exact H2]|]. destruct p; [congruence|]. exact Hstep. }
    apply Nat.ltb_ge in H2. remember (13 + declared 11 p)%nat as e eqn:He.
    assert (Hl : length (firstn e p) = e) by (apply firstn_length_le, H2).
    assert (Hd : declared 11 (firstn e p) = declared 11 p).
    { unfold declared. rewrite skipn_firstn_comm, firstn_firstn. do 3 f_equal. lia. }
    assert (Hs : (length (skipn e p) <= fuel)%nat) by (rewrite skipn_length; lia).
    destruct (IH _ Hs) as (rs & tail & Hp & Hw & Ht & Hr). exists (firstn e p :: rs), tail.
    split; [cbn [concat]; rewrite <- app_assoc, <- Hp, firstn_skipn; reflexivity|].
    split; [constructor; [unfold whole12; rewrite Hl, Hd; lia|exact Hw]|].
    split; [exact Ht|]. intros room s. rewrite Hstep. cbn [feed]. unfold bind at 1 3.
    destruct (rec_parse E (firstn e p) s) as [[[r|]|x|n] s1]; try reflexivity; [|apply Hr].
    destruct room as [|room]; [reflexivity|]. unfold bind. rewrite Hr. reflexivity.
Qed.

(** ** DTLS 1.3 *)

Lemma bound13_spec p : p <> [] ->
  match rec_bound13 p with
  | BStop => is_ct_header (hd 0 p) = true /\ flag_c (hd 0 p) = true
  | BBad => short13 p /\ (is_ct_header (hd 0 p) = true -> flag_c (hd 0 p) = false)
  | BRec e => (2 <= e <= length p)%nat /\ whole13 (Nat.eqb e (length p)) (firstn e p)
  end.
Proof.
  intros Hne. destruct (rec_bound13 p) as [| |e] eqn:H.
  - unfold rec_bound13 in H. cbv zeta in H. destruct (is_ct_header (hd 0 p)).
    + destruct (flag_c _); [auto|]. repeat match type of H with (if ?b then _ else _) = _ => destruct b; try discriminate H end.
    + repeat match type of H with (if ?b then _ else _) = _ => destruct b; try discriminate H end.
  - unfold rec_bound13 in H. unfold short13. destruct (is_ct_header _).
    + destruct (flag_c _); [discriminate|]. split; [|reflexivity]. right.
      destruct (Nat.ltb _ 2) eqn:H1; [apply Nat.ltb_lt in H1; left; exact H1|].
      destruct (Nat.ltb _ (uhdr_len _)) eqn:H2; [apply Nat.ltb_lt in H2; right; left; exact H2|].
      destruct (flag_l _).
      * destruct (Nat.ltb _ _) eqn:H3 in H; [apply Nat.ltb_lt in H3; right; right; auto|discriminate].
      * rewrite Nat.ltb_irrefl in H. discriminate.
    + split; [|discriminate]. unfold short12. destruct (Nat.ltb _ 13) eqn:H1; [apply Nat.ltb_lt in H1; left; exact H1|].
      destruct (Nat.ltb _ _) eqn:H3 in H; [apply Nat.ltb_lt in H3; right; exact H3|discriminate].
  - destruct (bound_cut p e H) as (Hb & H1 & H2 & Hl). split; [lia|].
    unfold whole13. unfold rec_bound13 in Hb, H. rewrite hd_firstn in * by lia. rewrite Hl in *.
    destruct (is_ct_header (hd 0 p)).
    + destruct (flag_c _); [discriminate|]. destruct (Nat.ltb e 2); [discriminate|]. destruct (Nat.ltb (length p) 2); [discriminate|].
      destruct (Nat.ltb e (uhdr_len _)) eqn:H3; [discriminate|]. apply Nat.ltb_ge in H3.
      destruct (Nat.ltb (length p) (uhdr_len _)); [discriminate|].
      split; [reflexivity|]. split; [exact H3|]. split; [exact H2|].
      destruct (flag_l _).
      * destruct (Nat.ltb e _) in Hb; [discriminate|]. apply BRec_inj in Hb. symmetry. exact Hb.
      * rewrite Nat.ltb_irrefl in H. apply BRec_inj in H. subst. apply Nat.eqb_refl.
    + destruct (Nat.ltb e 13) eqn:H3; [discriminate|]. apply Nat.ltb_ge in H3.
      destruct (Nat.ltb e _) in Hb; [discriminate|]. apply BRec_inj in Hb. split; [rewrite Hl; exact H3|].
      rewrite Hl. symmetry. exact Hb.
Qed.

(** What is left ends the work with an error, or silently when it is empty or a
    record with a connection ID. *)
Definition leftover13 (tail : bytes) : M Eng13 (list Rec12) :=
  if is_nil tail || (is_ct_header (hd 0 tail) && flag_c (hd 0 tail)) then ret [] else fail ETransient.

Lemma split13 E : forall fuel p, (length p <= fuel)%nat -> exists rs tail,
  p = concat rs ++ tail /\ all_whole13 rs tail /\ (tail = [] \/ (tail <> [] /\ short13 tail)) /\
  forall room s, parse_loop13 E fuel room p s = feed (rec_parse13 E) room rs (leftover13 tail) s.
Proof.
  induction fuel as [|fuel IH]; intros p Hf.
  - destruct p as [|b p]; [|cbn in Hf; lia]. exists [], []. repeat split; auto.
  - destruct p as [|b p0].
    { exists [], []. repeat split; auto. }
    remember (b :: p0) as p eqn:Hp. assert (Hne : p <> []) by (rewrite Hp; discriminate).
    assert (Hstep : forall room s, parse_loop13 E (S fuel) room p s =
      (match rec_bound13 p with
       | BStop => ret []
       | BBad => fail ETransient
       | BRec e =>
         let! o := rec_parse13 E (firstn e p) in
         match o with
         | None => parse_loop13 E fuel room (skipn e p)
         | Some r => match room with
                     | O => fail ETransient
                     | S room' => let! rs := parse_loop13 E fuel room' (skipn e p) in ret (r :: rs)
                     end
         end
       end) s) by (intros; rewrite Hp; reflexivity).
    clear Hp b p0. pose proof (bound13_spec p Hne) as HB.
    destruct (rec_bound13 p) as [| |e] eqn:Hb.
    + destruct HB as [H1 H2]. exists [], p. split; [reflexivity|]. split; [exact I|].
      split; [right; split; [exact Hne|unfold short13; rewrite H1; left; exact H2]|].
      intros room s. rewrite Hstep. cbn [feed]. unfold leftover13. rewrite H1, H2, orb_true_r. reflexivity.
    + destruct HB as [H1 H2]. exists [], p. split; [reflexivity|]. split; [exact I|].
      split; [right; split; [exact Hne|exact H1]|].
      intros room s. rewrite Hstep. cbn [feed]. unfold leftover13. destruct p; [congruence|]. cbn [is_nil orb].
      destruct (is_ct_header _); [rewrite H2 by reflexivity|]; reflexivity.
    + destruct HB as [H1 H2].
      assert (Hl : length (firstn e p) = e) by (apply firstn_length_le; lia).
      assert (Hs : (length (skipn e p) <= fuel)%nat) by (rewrite skipn_length; lia).
      destruct (IH _ Hs) as (rs & tail & Hp & Hw & Ht & Hr). exists (firstn e p :: rs), tail.
      split; [cbn [concat]; rewrite <- app_assoc, <- Hp, firstn_skipn; reflexivity|].
      split.
      { cbn [all_whole13]. split; [|exact Hw]. assert (K : is_nil rs && is_nil tail = Nat.eqb e (length p)); [|exact (eq_ind_r (fun b => whole13 b (firstn e p)) H2 K)].
        assert (Hlen : length (skipn e p) = (length p - e)%nat) by apply skipn_length.
        rewrite Hp, app_length in Hlen. destruct (Nat.eqb e (length p)) eqn:He.
        - apply Nat.eqb_eq in He. destruct tail; [|cbn [length] in Hlen; lia].
          destruct rs as [|r rs]; [reflexivity|]. exfalso. cbn [all_whole13 concat] in *. rewrite app_length in Hlen.
          destruct Hw as [Hw _]. unfold whole13, whole12 in Hw. destruct (is_ct_header _); lia.
        - apply Nat.eqb_neq in He. destruct rs; [|reflexivity]. destruct tail; [|reflexivity].
          cbn in Hlen. lia. }
      split; [exact Ht|]. intros room s. rewrite Hstep. cbn [feed]. unfold bind at 1 3.
      destruct (rec_parse13 E (firstn e p) s) as [[[r|]|x|n] s1]; try reflexivity; [|apply Hr].
      destruct room as [|room]; [reflexivity|]. unfold bind. rewrite Hr. reflexivity.
Qed.

(** ** C08 *)

(** Every datagram is a sequence of whole records followed by bytes from which no
    record can be cut (possibly none).  A DTLS 1.2 endpoint handles exactly these
    records, in order; it fails with a non-fatal error when bytes are left or when
    more than 8 records are acceptable. *)
Theorem C08_split12 : forall E p, exists rs tail,
  p = concat rs ++ tail /\ Forall whole12 rs /\ (tail = [] \/ (tail <> [] /\ short12 tail)) /\
  forall s, parse_loop E (length p) 8 p s =
    feed (rec_parse E) 8 rs (if is_nil tail then ret [] else fail ETransient) s.
Proof.
  intros E p. destruct (split12 E (length p) p (le_n _)) as (rs & tail & H1 & H2 & H3 & H4). eauto 6.
Qed.
Print Assumptions C08_split12.

(** The same for DTLS 1.3, with at most 16 records. *)
Theorem C08_split13 : forall E p, exists rs tail,
  p = concat rs ++ tail /\ all_whole13 rs tail /\ (tail = [] \/ (tail <> [] /\ short13 tail)) /\
  forall s, parse_loop13 E (length p) 16 p s = feed (rec_parse13 E) 16 rs (leftover13 tail) s.
Proof.
  intros E p. destruct (split13 E (length p) p (le_n _)) as (rs & tail & H1 & H2 & H3 & H4). eauto 6.
Qed.
Print Assumptions C08_split13.

(** At most 8 / 16 records of a datagram are kept. *)
Theorem C08_bounded12 : forall E p s rs s', records_parse E p s = (Ok rs, s') -> (length rs <= 8)%nat.
Proof.
  intros E p s rs s' H. unfold records_parse, bind in H.
  destruct (C08_split12 E p) as (ps & tail & _ & _ & _ & Hr). rewrite Hr in H. clear Hr.
  pose proof (feed_bound (rec_parse E) (if is_nil tail then ret [] else fail ETransient)
    ltac:(intro; destruct (is_nil tail); [left|right]; reflexivity) ps 8 s) as B. unfold wp in B.
  destruct (feed _ _ _ _ s) as [[xs|x|n] s1]; [|discriminate|discriminate]. cbn [fst] in B.
  assert (K : forall xs s1 rs s', classify_all xs s1 = (Ok rs, s') -> (length rs <= length xs)%nat).
  { clear. induction xs as [|x xs IH]; intros s1 rs s' H; cbn [classify_all] in H; [injection H; intros; subst; auto|].
    unfold bind in H. destruct (classify_record x s1) as [[o|e|n] s2]; try discriminate.
    destruct (classify_all xs s2) as [[ys|e|n] s3] eqn:Hc; try discriminate. apply IH in Hc.
    injection H; intros; subst. destruct o; cbn [length]; lia. }
  apply K in H. lia.
Qed.
Print Assumptions C08_bounded12.
Theorem C08_bounded13 : forall E p s rs s', records_parse13 E p s = (Ok rs, s') -> (length rs <= 16)%nat.
Proof.
  intros E p s rs s' H. unfold records_parse13, bind in H.
  destruct (C08_split13 E p) as (ps & tail & _ & _ & _ & Hr). rewrite Hr in H. clear Hr.
  pose proof (feed_bound (rec_parse13 E) (leftover13 tail)
    ltac:(intro; unfold leftover13; destruct (_ || _); [left|right]; reflexivity) ps 16 s) as B. unfold wp in B.
  destruct (feed _ _ _ _ s) as [[xs|x|n] s1]; [|discriminate|discriminate]. cbn [fst] in B.
  assert (K : forall xs s1 rs s', classify_all13 E xs s1 = (Ok rs, s') -> (length rs <= length xs)%nat).
  { clear. induction xs as [|x xs IH]; intros s1 rs s' H; cbn [classify_all13] in H; [injection H; intros; subst; auto|].
    unfold bind in H. destruct (classify_record13 E x s1) as [[o|e|n] s2]; try discriminate.
    destruct (classify_all13 E xs s2) as [[ys|e|n] s3] eqn:Hc; try discriminate. apply IH in Hc.
    injection H; intros; subst. destruct o; cbn [length]; lia. }
  apply K in H. lia.
Qed.
Print Assumptions C08_bounded13.

(** The cut is unique. *)
Lemma declared_app n a b : (n + 2 <= length a)%nat -> declared n (a ++ b) = declared n a.
Proof.
  intros H. unfold declared. rewrite skipn_app, firstn_app.
  replace (2 - length (skipn n a))%nat with 0%nat by (rewrite skipn_length; lia). cbn [firstn]. rewrite app_nil_r. reflexivity.
Qed.
Lemma app_same_len {A} (a b x y : list A) : a ++ x = b ++ y -> length a = length b -> a = b /\ x = y.
Proof.
  revert b. induction a as [|u a IH]; intros [|v b] H L; cbn in *; try discriminate; [auto|].
  injection H as -> H. apply IH in H; [|lia]. destruct H as [-> ->]. auto.
Qed.
Lemma unique12 : forall rs1 rs2 t1 t2, concat rs1 ++ t1 = concat rs2 ++ t2 ->
  Forall whole12 rs1 -> Forall whole12 rs2 -> (t1 = [] \/ short12 t1) -> (t2 = [] \/ short12 t2) -> rs1 = rs2 /\ t1 = t2.
Proof.
  assert (K : forall r x t, whole12 r -> (t = [] \/ short12 t) -> t = r ++ x -> False).
  { intros r x t [W1 W2] Ht ->. destruct Ht as [Ht|Ht]; [apply app_eq_nil in Ht; destruct Ht; subst; cbn in W1; lia|].
    unfold short12 in Ht. rewrite declared_app, app_length in Ht by lia. lia. }
  induction rs1 as [|r1 rs1 IH]; intros [|r2 rs2] t1 t2 H W1 W2 T1 T2; cbn [concat app] in *.
  - auto.
  - exfalso. apply Forall_cons_iff in W2. rewrite <- app_assoc in H. eapply (K r2); [apply W2|exact T1|exact H].
  - exfalso. apply Forall_cons_iff in W1. rewrite <- app_assoc in H. eapply (K r1); [apply W1|exact T2|symmetry; exact H].
  - apply Forall_cons_iff in W1, W2. destruct W1 as [A1 W1], W2 as [A2 W2]. rewrite <- !app_assoc in H.
    assert (Hl : length r1 = length r2).
    { destruct A1 as [A A'], A2 as [B B']. rewrite A', B'. f_equal.
      rewrite <- (declared_app 11 r1 (concat rs1 ++ t1)), <- (declared_app 11 r2 (concat rs2 ++ t2)) by lia. congruence. }
    destruct (app_same_len _ _ _ _ H Hl) as [-> H']. destruct (IH _ _ _ H' W1 W2 T1 T2) as [-> ->]. auto.
Qed.

Lemma hd_app {A} (d : A) a b : a <> [] -> hd d (a ++ b) = hd d a.
Proof. destruct a; [congruence|reflexivity]. Qed.
Lemma whole13_nonnil l r : whole13 l r -> r <> [].
Proof. intros H ->. unfold whole13, whole12 in H. cbn [length] in H. destruct (is_ct_header _); lia. Qed.
Lemma unique13 : forall rs1 rs2 t1 t2, concat rs1 ++ t1 = concat rs2 ++ t2 ->
  all_whole13 rs1 t1 -> all_whole13 rs2 t2 -> (t1 = [] \/ short13 t1) -> (t2 = [] \/ short13 t2) -> rs1 = rs2 /\ t1 = t2.
Proof.
  assert (K : forall l r x t, whole13 l r -> (t = [] \/ short13 t) -> t = r ++ x -> False).
  { intros l r x t W Ht ->. pose proof (whole13_nonnil _ _ W) as Hn.
    destruct Ht as [Ht|Ht]; [apply app_eq_nil in Ht; destruct Ht; congruence|].
    unfold short13 in Ht. unfold whole13 in W. rewrite (hd_app 0) in Ht by exact Hn. rewrite app_length in Ht.
    destruct (is_ct_header (hd 0 r)).
    - destruct W as (W1 & W2 & W3 & W4). destruct Ht as [Ht|[Ht|[Ht|[Ht1 Ht2]]]]; [congruence|lia|lia|].
      rewrite Ht1 in W4. rewrite declared_app in Ht2; [lia|]. unfold uhdr_len, len_len in W2. rewrite Ht1 in W2. lia.
    - destruct W as [W1 W2]. unfold short12 in Ht. rewrite declared_app, app_length in Ht by lia. lia. }
  induction rs1 as [|r1 rs1 IH]; intros [|r2 rs2] t1 t2 H W1 W2 T1 T2; cbn [concat app all_whole13] in *.
  - auto.
  - exfalso. rewrite <- app_assoc in H. eapply (K _ r2); [apply W2|exact T1|exact H].
  - exfalso. rewrite <- app_assoc in H. eapply (K _ r1); [apply W1|exact T2|symmetry; exact H].
  - destruct W1 as [A1 W1], W2 as [A2 W2]. rewrite <- !app_assoc in H.
    pose proof (whole13_nonnil _ _ A1) as N1. pose proof (whole13_nonnil _ _ A2) as N2.
    assert (Hh : hd 0 r1 = hd 0 r2).
    { rewrite <- (hd_app 0 r1 (concat rs1 ++ t1)), <- (hd_app 0 r2 (concat rs2 ++ t2)) by assumption. congruence. }
    assert (Z : forall (rs : list bytes) (t : bytes), is_nil rs && is_nil t = true -> concat rs ++ t = []).
    { intros [|? ?] [|? ?] E; cbn in *; congruence. }
    assert (Hl : length r1 = length r2).
    { unfold whole13 in A1, A2. rewrite Hh in A1. destruct (is_ct_header (hd 0 r2)).
      - destruct A1 as (B1 & B2 & B3 & B4), A2 as (C1 & C2 & C3 & C4). destruct (flag_l (hd 0 r2)) eqn:Hf.
        + rewrite B4, C4. f_equal.
          assert (L : (1 + seq_len (hd 0%N r2) + 2 = uhdr_len (hd 0%N r2))%nat) by (unfold uhdr_len, len_len; rewrite Hf; lia).
          rewrite <- (declared_app _ r1 (concat rs1 ++ t1)), <- (declared_app _ r2 (concat rs2 ++ t2)) by lia. congruence.
        + apply Z in B4, C4. apply (f_equal (@length N)) in H. rewrite B4, C4, !app_nil_r in H. exact H.
      - destruct A1 as [A A'], A2 as [B B']. rewrite A', B'. f_equal.
        rewrite <- (declared_app 11 r1 (concat rs1 ++ t1)), <- (declared_app 11 r2 (concat rs2 ++ t2)) by lia. congruence. }
    destruct (app_same_len _ _ _ _ H Hl) as [-> H']. destruct (IH _ _ _ H' W1 W2 T1 T2) as [-> ->]. auto.
Qed.

Lemma feed_fails {S} (parse : bytes -> M S (option Rec12)) (ok : error -> Prop) :
  (forall r s, wp (parse r) (fun x _ => match x with Err e => ok e | _ => True end) s) ->
  forall rs room s, wp (feed parse room rs (fail ETransient)) (fun x _ =>
    match x with Ok _ => False | Err e => e = ETransient \/ ok e | Panic _ => True end) s.
Proof.
  intros Hp. induction rs as [|r rs IH]; intros room s; cbn [feed]; [left; reflexivity|].
  apply wp_bind. wpuse (Hp r s). intros [[x|]|e|n] s' H; [|apply IH|right; exact H|exact I].
  destruct room as [|room]; [left; reflexivity|]. apply wp_bind. wpuse (IH room s').
  intros [xs|e|n] s'' H''; [destruct H''|exact H''|exact I].
Qed.

(** A datagram that ends in bytes that are no record: whatever precedes them, the
    call succeeds as seen by the caller, and the receive queue is not touched.  In
    DTLS 1.2 a whole record before them can end the work first, by failing its
    authentication before the handshake is finished ([ECrypto]); panics are the
    subject of C52. *)
Theorem C08_malformed12 : forall E s rs tail r s',
  Forall whole12 rs -> tail <> [] -> short12 tail ->
  end12_call E (Packet (concat rs ++ tail)) s = (r, s') ->
  (r = Ok None \/ r = Err ECrypto \/ panicked r) /\ en_rx (end_eng s') = en_rx (end_eng s).
Proof.
  intros E s rs tail r s' W Tn T H.
  destruct (C08_split12 E (concat rs ++ tail)) as (rs' & tail' & Hp & W' & T' & Hr).
  assert (T'' : tail' = [] \/ short12 tail') by tauto.
  destruct (unique12 _ _ _ _ Hp W W' (or_intror T) T'') as [-> ->].
  assert (G : wp (eng12_parse_packet E (concat rs' ++ tail')) (fun x e' =>
    match x with Ok _ => False | Err e => e = ETransient \/ e = ECrypto | Panic _ => True end /\
    en_rx (end_eng s) = en_rx e') (end_eng s)).
  { unfold eng12_parse_packet, records_parse. apply wp_bind, wp_bind.
    assert (F : wp (parse_loop E (length (concat rs' ++ tail')) 8 (concat rs' ++ tail'))
                  (fun x e' => match x with Ok _ => False | Err e => e = ETransient \/ e = ECrypto | Panic _ => True end) (end_eng s)).
    { unfold wp. rewrite Hr. replace (is_nil tail') with false by (destruct tail'; [congruence|reflexivity]).
      pose proof (feed_fails (rec_parse E) (fun e => e = ETransient \/ e = ECrypto)) as FF.
      specialize (FF ltac:(intros r0 s0; unfold rec_parse, decryption_aad_and_nonce; destruct (p_parsed12 0 r0); [|exact I]; wps; auto)
        rs' 8%nat (end_eng s)). unfold wp in FF. destruct (fst _); [exact FF|tauto|exact I]. }
    assert (F2 : wp (parse_loop E (length (concat rs' ++ tail')) 8 (concat rs' ++ tail')) (fun _ e' => en_rx (end_eng s) = en_rx e') (end_eng s)).
    { apply (wp_pres (fun a b => en_rx a = en_rx b)). apply fr_parse_loop; try (intros; reflexivity); apply preorder_eq. }
    eapply wp_mono; [apply (wp_conj _ _ _ _ F F2)|]. intros [x|x|x] e' [A B]; [destruct A|auto|auto]. }
  destruct s as [c|c]; cbn [end12_call client12_call server12_call end_eng] in *;
    unfold no_output, client12_handle_packet, server12_handle_packet, bind, public, ceng, seng, zoom in H.
  - unfold wp in G. destruct (eng12_parse_packet E _ (cl_eng c)) as [[x|x|x] e']; cbn [fst snd] in G; destruct G as [G1 G2]; [destruct G1| |].
    + destruct G1 as [-> | ->]; injection H; intros; subst; (split; [auto|symmetry; exact G2]).
    + injection H; intros; subst. split; [right; right; exact I|symmetry; exact G2].
  - unfold wp in G. destruct (eng12_parse_packet E _ (sv_eng c)) as [[x|x|x] e']; cbn [fst snd] in G; destruct G as [G1 G2]; [destruct G1| |].
    + destruct G1 as [-> | ->]; injection H; intros; subst; (split; [auto|symmetry; exact G2]).
    + injection H; intros; subst. split; [right; right; exact I|symmetry; exact G2].
Qed.
Print Assumptions C08_malformed12.

Theorem C08_malformed13 : forall E s rs tail r s',
  match s with XS x => xs_auto x = false | XC _ => True end ->
  all_whole13 rs tail -> tail <> [] -> short13 tail ->
  (is_ct_header (hd 0 tail) = true -> flag_c (hd 0 tail) = false) ->
  end13_call E (Packet (concat rs ++ tail)) s = (r, s') ->
  (r = Ok None \/ panicked r) /\ g_rx (end13_eng s') = g_rx (end13_eng s).
Proof.
  intros E s rs tail r s' Hauto W Tn T Hc H.
  destruct (C08_split13 E (concat rs ++ tail)) as (rs' & tail' & Hp & W' & T' & Hr).
  assert (T'' : tail' = [] \/ short13 tail') by tauto.
  destruct (unique13 _ _ _ _ Hp W W' (or_intror T) T'') as [-> ->].
  assert (G : wp (eng13_parse_packet E (concat rs' ++ tail')) (fun x e' =>
    match x with Ok _ => False | Err e => e = ETransient | Panic _ => True end /\
    g_rx (end13_eng s) = g_rx e') (end13_eng s)).
  { unfold eng13_parse_packet, records_parse13. apply wp_bind, wp_bind.
    assert (F : wp (parse_loop13 E (length (concat rs' ++ tail')) 16 (concat rs' ++ tail'))
                  (fun x e' => match x with Ok _ => False | Err e => e = ETransient | Panic _ => True end) (end13_eng s)).
    { unfold wp. rewrite Hr. unfold leftover13. replace (_ || _) with false.
      2:{ destruct tail'; [congruence|]. cbn [is_nil orb]. destruct (is_ct_header _); [|reflexivity].
          rewrite Hc by reflexivity. reflexivity. }
      pose proof (feed_fails (rec_parse13 E) (fun _ => False)) as FF.
      assert (RP : forall r0 s0, wp (rec_parse13 E r0) (fun x _ => match x with Err _ => False | _ => True end) s0).
      { intros r0 s0. unfold rec_parse13, unmask13, suite_provider13. wps; exact I. }
      specialize (FF RP rs' 16%nat (end13_eng s)). unfold wp in FF. destruct (fst _); [exact FF|tauto|exact I]. }
    assert (F2 : wp (parse_loop13 E (length (concat rs' ++ tail')) 16 (concat rs' ++ tail')) (fun _ e' => g_rx (end13_eng s) = g_rx e') (end13_eng s)).
    { apply (wp_pres (fun a b => g_rx a = g_rx b)). apply fr_parse_loop13; [apply preorder_eq|].
      intro raw. apply op_rec_parse; try (intros; reflexivity); apply preorder_eq. }
    eapply wp_mono; [apply (wp_conj _ _ _ _ F F2)|]. intros [x|x|x] e' [A B]; [destruct A|auto|auto]. }
  destruct s as [c|c]; cbn [end13_call client13_call server13_call end13_eng] in *;
    unfold no_output, client13_handle_packet, server13_handle_packet, y_process, bind, get, public, xeng, yeng, zoom in H.
  - unfold wp in G. destruct (eng13_parse_packet E _ (xc_eng c)) as [[x|x|x] e']; cbn [fst snd] in G; destruct G as [G1 G2]; [destruct G1| |].
    + subst x; injection H; intros; subst; (split; [auto|symmetry; exact G2]).
    + injection H; intros; subst. split; [right; exact I|symmetry; exact G2].
  - rewrite Hauto in H. cbn [andb] in H.
    unfold wp in G. destruct (eng13_parse_packet E _ (xs_eng c)) as [[x|x|x] e']; cbn [fst snd] in G; destruct G as [G1 G2]; [destruct G1| |].
    + subst x; injection H; intros; subst; (split; [auto|symmetry; exact G2]).
    + injection H; intros; subst. split; [right; exact I|symmetry; exact G2].
Qed.
Print Assumptions C08_malformed13.

(** Two records and two stray bytes; the connected endpoints take the datagram
    without an error. *)
Definition two_records : bytes :=
  ([22; 254; 253; 0; 0; 0; 0; 0; 0; 0; 9; 0; 1] ++ [7]) ++ ([21; 254; 253; 0; 0; 0; 0; 0; 0; 0; 10; 0; 2] ++ [1; 0]).
Example C08_case :
  Forall whole12 [firstn 14 two_records; skipn 14 two_records] /\ short12 [1; 2] /\
  all_whole13 [firstn 14 two_records; skipn 14 two_records] [1; 2] /\ short13 [1; 2] /\
  fst (end12_call toy (Packet (two_records ++ [1; 2])) (snd cl_run)) = Ok None /\
  fst (end13_call toy (Packet (two_records ++ [1; 2])) (snd xc_run)) = Ok None.
Proof.
  assert (W : whole12 (firstn 14 two_records) /\ whole12 (skipn 14 two_records)) by (unfold whole12; vm_compute; lia).
  assert (T : short12 [1; 2]) by (left; cbn; lia).
  split; [repeat constructor; apply W|]. split; [exact T|].
  split; [cbn [all_whole13]; unfold whole13; cbn -[whole12]; tauto|]. split; [exact T|].
  split; vm_compute; reflexivity.
Qed.
