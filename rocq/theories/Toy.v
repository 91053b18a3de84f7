(** A concrete, executable instance of [Env]: toy cryptography used only to run
    the model on examples and to show that the hypotheses of the theorems can be
    met.  No theorem about the code depends on it. *)
From Verif Require Import Prelude PreludeFacts Types Env Config Context12.

Definition toy_mix (acc : N) (l : bytes) : N :=
  fold_left (fun a b => N.land (a * 33 + b + 11) 16777215) l (N.land acc 16777215).

Fixpoint toy_expand (n : nat) (x : N) : bytes :=
  match n with
  | O => []
  | S k => N.land (N.div2 (N.div2 (N.div2 x))) 255 :: toy_expand k (N.land (x * 141 + 12345) 16777215)
  end.

Definition toy_hash (h : N) (d : bytes) : bytes := toy_expand (hash_len h) (toy_mix h d).
Definition toy_hmac (h : N) (k d : bytes) : option bytes :=
  Some (toy_expand (hash_len h) (toy_mix (toy_mix h (len k :: k)) d)).

Definition toy_tag (tag : nat) (s : N) (key nonce aad pt : bytes) : bytes :=
  toy_expand tag (toy_mix (toy_mix (toy_mix (toy_mix s key) nonce) aad) pt).

Definition toy_taglen (s : N) : nat := if s =? CS_PSK then 8 else 16.

Definition toy_seal (s : N) (key nonce aad pt : bytes) : option bytes :=
  Some (pt ++ toy_tag (toy_taglen s) s key nonce aad pt).
Definition toy_open (s : N) (key nonce aad ct : bytes) : option bytes :=
  let t := toy_taglen s in
  if Nat.ltb (length ct) t then None
  else let pt := firstn (length ct - t) ct in
       if beqb (skipn (length ct - t) ct) (toy_tag t s key nonce aad pt) then Some pt else None.

Definition toy_suites12 : list Suite12Info :=
  [mkS12 CS_AES256 0 32 4 8 16; mkS12 CS_AES128 0 16 4 8 16; mkS12 CS_CHACHA 0 32 12 0 16;
   mkS12 CS_PSK 0 16 4 8 8].
Definition toy_suites13 : list Suite13Info :=
  [mkS13 S13_AES128 16 12 16; mkS13 S13_AES256 32 12 16; mkS13 S13_CHACHA 32 12 16].

Definition toy_kx_start (g t : N) : option (bytes * bytes) :=
  Some ([t mod 256], [g mod 256; t mod 256]).
Definition toy_kx_complete (g : N) (sk pk : bytes) : option bytes :=
  match sk, pk with
  | [a], [g'; b] => if g' =? g mod 256 then Some (toy_expand 32 (a + b + g)) else None
  | _, _ => None
  end.

(** A certificate is 48 followed by the key. *)
Definition toy_sign (key : bytes) (h : N) (d : bytes) (t : N) : option bytes :=
  Some (toy_expand 20 (toy_mix (toy_mix h key) d)).
Definition toy_verify (cert d sig : bytes) (h alg : N) : bool :=
  match cert with
  | 48 :: key => beqb sig (toy_expand 20 (toy_mix (toy_mix h key) d))
  | _ => false
  end.

(** Binary search by linear scan. *)
Fixpoint toy_bsearch (i : nat) (cs : list comparison) : bool * nat :=
  match cs with
  | [] => (false, i)
  | Lt :: r => toy_bsearch (S i) r
  | Eq :: r => (true, i)
  | Gt :: r => (false, i)
  end.

Definition toy : Env := mkEnv
  toy_suites12 toy_suites13 [G_X25519; G_P256; G_P384]
  (fun _ _ => true) toy_seal toy_open
  (fun s k sample => toy_expand 16 (toy_mix (toy_mix s k) sample))
  toy_hash toy_hmac toy_kx_start toy_kx_complete toy_sign toy_verify
  (fun _ => Some G_P256)
  (fun t n => toy_expand n (t * 7919 + 104729))
  (fun _ => 0%Z) (fun _ _ => 0)
  (fun _ cs => toy_bsearch 0 cs).

Definition toy_key (k : N) : KeyInfo := mkKey [k] SIG_ECDSA H_SHA256 [H_SHA256; H_SHA384].
Definition toy_auth (k : N) : AuthMode := AuthCert [48; k] (toy_key k).

(** ** The hypotheses on the provider hold of this instance. *)

Lemma toy_expand_length n x : length (toy_expand n x) = n.
Proof. revert x; induction n; simpl; intros; auto. Qed.

Lemma toy_expand_ok n x : bytes_ok (toy_expand n x).
Proof.
  revert x; induction n; intros; [constructor|]. simpl. constructor; [|apply IHn].
  unfold byte_ok. change 255 with (N.ones 8). rewrite N.land_ones. apply N.mod_lt. discriminate.
Qed.

Lemma toy_bsearch_repeat cs : forall i f j,
  toy_bsearch i cs = (f, j) ->
  (i <= j)%nat /\
  (f = true -> nth_error cs (j - i) = Some Eq) /\
  (f = false -> (j - i <= length cs)%nat) /\
  (forall a b c, cs = repeat Lt a ++ repeat Eq b ++ repeat Gt c ->
     (f = true <-> (0 < b)%nat) /\ (f = false -> j = (i + a)%nat)).
Proof.
  induction cs as [|x cs IH]; intros i f j H; simpl in H.
  - inversion H; subst. split; [lia|]. split; [discriminate|]. split; [simpl; lia|].
    intros a b c Hc.
    assert (a = 0 /\ b = 0)%nat as [-> ->].
    { apply (f_equal (@length _)) in Hc. rewrite !app_length, !repeat_length in Hc. simpl in Hc. lia. }
    split; [split; [discriminate|lia]|lia].
  - destruct x.
    + inversion H; subst. split; [lia|]. split; [|split; [discriminate|]].
      * intros _. replace (j - j)%nat with 0%nat by lia. reflexivity.
      * intros a b c Hc. destruct a; [|discriminate].
        destruct b; [destruct c; discriminate|]. split; [split; [lia|auto]|discriminate].
    + apply IH in H. destruct H as (Hij & Ht & Hf & Hr).
      split; [lia|]. split; [|split].
      * intros E. replace (j - i)%nat with (S (j - S i)) by lia. simpl. auto.
      * intros E. specialize (Hf E). simpl. lia.
      * intros a b c Hc. destruct a.
        { destruct b; [destruct c; discriminate|discriminate]. }
        simpl in Hc. injection Hc as Hc. destruct (Hr _ _ _ Hc) as [H1 H2].
        split; [exact H1|]. intros E. rewrite (H2 E). lia.
    + inversion H; subst. split; [lia|]. split; [discriminate|]. split; [simpl; lia|].
      intros a b c Hc. destruct a; [|discriminate].
      destruct b; [|discriminate]. split; [split; [discriminate|lia]|lia].
Qed.

Lemma toy_bsearch_ok : bsearch_ok toy.
Proof.
  intros t cs. simpl. destruct (toy_bsearch 0 cs) as [f i] eqn:H.
  apply toy_bsearch_repeat in H. destruct H as (_ & Ht & Hf & Hr).
  rewrite Nat.sub_0_r in *. split; [exact Ht|]. split; [exact Hf|exact Hr].
Qed.

Lemma toy_jitter_ok : jitter_ok toy.
Proof. intros t. simpl. lia. Qed.

Lemma toy_rand_ok : rand_ok toy.
Proof. intros t n. simpl. split; [apply toy_expand_length|apply toy_expand_ok]. Qed.

Lemma toy_hmac_ok : hmac_ok toy.
Proof. intros h k d. simpl. split; [apply toy_expand_length|apply toy_expand_ok]. Qed.

Lemma toy_seal_open_ok : seal_open_ok toy.
Proof.
  intros s k n a p c H. simpl in *. unfold toy_seal in H. injection H as <-.
  unfold toy_open. set (T := toy_tag _ _ _ _ _ _).
  assert (HT : length T = toy_taglen s) by apply toy_expand_length.
  rewrite app_length, HT.
  replace (Nat.ltb _ _) with false by (symmetry; apply Nat.ltb_ge; lia).
  replace (length p + toy_taglen s - toy_taglen s)%nat with (length p) by lia.
  rewrite firstn_app, Nat.sub_diag, firstn_all, firstn_O, app_nil_r.
  rewrite skipn_app, Nat.sub_diag, skipn_all, skipn_O. simpl.
  fold T. rewrite beqb_refl. reflexivity.
Qed.

Lemma toy_suites12_ok : suites12_ok toy.
Proof.
  intros s i H. unfold find12 in H. apply find_some in H. destruct H as [H _].
  simpl in H. decompose [or] H; subst; simpl; auto; contradiction.
Qed.

Lemma toy_suites13_ok : suites13_ok toy.
Proof.
  intros s i H. unfold find13 in H. apply find_some in H. destruct H as [H _].
  simpl in H. decompose [or] H; subst; simpl; auto; contradiction.
Qed.

Lemma toy_seal12_len_ok : seal12_len_ok toy.
Proof.
  intros s i k n a p c F H. simpl in H. unfold toy_seal in H. injection H as <-.
  rewrite app_length. unfold toy_tag. rewrite toy_expand_length.
  unfold find12 in F. apply find_some in F. destruct F as [F E]. apply N.eqb_eq in E. subst s.
  simpl in F. decompose [or] F; subst; simpl; auto; contradiction.
Qed.

Lemma toy_seal13_len_ok : seal13_len_ok toy.
Proof.
  intros s i k n a p c F H. simpl in H. unfold toy_seal in H. injection H as <-.
  rewrite app_length. unfold toy_tag. rewrite toy_expand_length.
  unfold find13 in F. apply find_some in F. destruct F as [F E]. apply N.eqb_eq in E. subst s.
  simpl in F. decompose [or] F; subst; simpl; auto; contradiction.
Qed.

Lemma toy_seal_bytes_ok : seal_bytes_ok toy.
Proof.
  intros s k n a p c Hp H. simpl in H. unfold toy_seal in H. injection H as <-.
  apply bytes_ok_app. split; [exact Hp|apply toy_expand_ok].
Qed.
