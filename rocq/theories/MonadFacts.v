(** Reasoning rules for the state monad: weakest preconditions and preserved
    relations. *)
From Verif Require Import Prelude Monad.

(** [wp m Q s]: running [m] from [s] ends with a result and state satisfying [Q]. *)
Definition wp {S A} (m : M S A) (Q : res A -> S -> Prop) (s : S) : Prop :=
  Q (fst (m s)) (snd (m s)).

(** [wpo m Q s]: the same, [Q] only concerns successful runs. *)
Definition wpo {S A} (m : M S A) (Q : A -> S -> Prop) (s : S) : Prop :=
  wp m (fun r s' => match r with Ok a => Q a s' | _ => True end) s.

Section Wp.
Context {S A B : Type}.
Implicit Types (s : S) (Q : res A -> S -> Prop).

Lemma wp_ret (a : A) Q s : Q (Ok a) s -> wp (ret a) Q s.
Proof. exact (fun H => H). Qed.
Lemma wp_fail e Q s : Q (Err e) s -> wp (fail e) Q s.
Proof. exact (fun H => H). Qed.
Lemma wp_panic n Q s : Q (Panic n) s -> wp (panic n) Q s.
Proof. exact (fun H => H). Qed.
Lemma wp_bind (m : M S B) (k : B -> M S A) Q s :
  wp m (fun r s' => match r with
                    | Ok b => wp (k b) Q s'
                    | Err e => Q (Err e) s'
                    | Panic n => Q (Panic n) s'
                    end) s -> wp (bind m k) Q s.
Proof. unfold wp, bind. destruct (m s) as [[b|e|n] s']; exact (fun H => H). Qed.
Lemma wp_bind_inv (m : M S B) (k : B -> M S A) Q s :
  wp (bind m k) Q s ->
  wp m (fun r s' => match r with
                    | Ok b => wp (k b) Q s'
                    | Err e => Q (Err e) s'
                    | Panic n => Q (Panic n) s'
                    end) s.
Proof. unfold wp, bind. destruct (m s) as [[b|e|n] s']; exact (fun H => H). Qed.
Lemma wp_mono (m : M S A) (P Q : res A -> S -> Prop) s :
  wp m P s -> (forall r s', P r s' -> Q r s') -> wp m Q s.
Proof. unfold wp. intros H H'. apply H', H. Qed.
Lemma wp_conj (m : M S A) (P Q : res A -> S -> Prop) s :
  wp m P s -> wp m Q s -> wp m (fun r s' => P r s' /\ Q r s') s.
Proof. unfold wp. auto. Qed.
Lemma wp_run (m : M S A) Q s r s' : m s = (r, s') -> wp m Q s -> Q r s'.
Proof. unfold wp. intros ->. exact (fun H => H). Qed.
Lemma wp_intro (m : M S A) Q s : (forall r s', m s = (r, s') -> Q r s') -> wp m Q s.
Proof. unfold wp. intros H. apply H. destruct (m s); reflexivity. Qed.
Lemma wp_of_opt (e : error) (o : option A) Q s :
  match o with Some a => Q (Ok a) s | None => Q (Err e) s end -> wp (of_opt e o) Q s.
Proof. destruct o; exact (fun H => H). Qed.
Lemma wp_zoom {T} (g : S -> T) (p : T -> S -> S) (m : M T A) Q s :
  wp m (fun r t => Q r (p t s)) (g s) -> wp (zoom g p m) Q s.
Proof. unfold wp, zoom. destruct (m (g s)); exact (fun H => H). Qed.
End Wp.

Lemma wp_get {S} (Q : res S -> S -> Prop) s : Q (Ok s) s -> wp get Q s.
Proof. exact (fun H => H). Qed.
Lemma wp_gets {S A} (f : S -> A) (Q : res A -> S -> Prop) (s : S) : Q (Ok (f s)) s -> wp (gets f) Q s.
Proof. exact (fun H => H). Qed.
Lemma wp_modify {S} (f : S -> S) (Q : res unit -> S -> Prop) (s : S) : Q (Ok tt) (f s) -> wp (modify f) Q s.
Proof. exact (fun H => H). Qed.
Lemma wp_when {S} (b : bool) (m : M S unit) (Q : res unit -> S -> Prop) (s : S) :
  (b = true -> wp m Q s) -> (b = false -> Q (Ok tt) s) -> wp (when b m) Q s.
Proof. destruct b; unfold when; intros H1 H2; [auto|apply wp_ret; auto]. Qed.

(** Reduce [wp] of a composite program as far as its syntax is known. *)
Ltac wpstep :=
  lazymatch goal with
  | |- wp (bind _ _) _ _ => apply wp_bind
  | |- wp (ret _) _ _ => apply wp_ret
  | |- wp (fail _) _ _ => apply wp_fail
  | |- wp (panic _) _ _ => apply wp_panic
  | |- wp get _ _ => apply wp_get
  | |- wp (gets _) _ _ => apply wp_gets
  | |- wp (modify _) _ _ => apply wp_modify
  | |- wp (when _ _) _ _ => apply wp_when; intro
  | |- wp (of_opt _ ?o) _ _ => apply wp_of_opt; destruct o eqn:?
  | |- wp (zoom _ _ _) _ _ => apply wp_zoom
  | |- wp (match ?x with _ => _ end) _ _ => destruct x eqn:?
  end.
Ltac wps := repeat wpstep.
Ltac wpuse L := eapply wp_mono; [apply L|cbv beta].

(** ** Relations preserved by a program, whatever its result *)

Definition pres {S A} (R : S -> S -> Prop) (m : M S A) : Prop := forall s, R s (snd (m s)).

Record preorder {S} (R : S -> S -> Prop) : Prop := {
  po_refl : forall s, R s s;
  po_trans : forall a b c, R a b -> R b c -> R a c }.

Section Pres.
Context {S : Type} (R : S -> S -> Prop) (PO : preorder R).

Lemma pres_wp {A} (m : M S A) : (forall s, wp m (fun _ s' => R s s') s) -> pres R m.
Proof. exact (fun H => H). Qed.
Lemma wp_pres {A} (m : M S A) s : pres R m -> wp m (fun _ s' => R s s') s.
Proof. intros H. apply H. Qed.
Lemma pres_ret {A} (a : A) : pres R (ret a).
Proof. intro s. apply (po_refl _ PO). Qed.
Lemma pres_fail {A} e : pres R (@fail S A e).
Proof. intro s. apply (po_refl _ PO). Qed.
Lemma pres_panic {A} n : pres R (@panic S A n).
Proof. intro s. apply (po_refl _ PO). Qed.
Lemma pres_get : pres R get.
Proof. intro s. apply (po_refl _ PO). Qed.
Lemma pres_gets {A} (f : S -> A) : pres R (gets f).
Proof. intro s. apply (po_refl _ PO). Qed.
Lemma pres_of_opt {A} e (o : option A) : pres R (of_opt e o).
Proof. destruct o; intro s; apply (po_refl _ PO). Qed.
Lemma pres_modify (f : S -> S) : (forall s, R s (f s)) -> pres R (modify f).
Proof. exact (fun H => H). Qed.
Lemma pres_bind {A B} (m : M S A) (k : A -> M S B) :
  pres R m -> (forall a, pres R (k a)) -> pres R (bind m k).
Proof.
  intros H K s. unfold bind. specialize (H s). destruct (m s) as [[a|e|n] s']; cbn in *; try exact H.
  eapply (po_trans _ PO); [exact H|apply K].
Qed.
Lemma pres_when b (m : M S unit) : pres R m -> pres R (when b m).
Proof. intros H. destruct b; [exact H|apply pres_ret]. Qed.
Lemma pres_iterM {A} (f : A -> M S unit) l : (forall a, pres R (f a)) -> pres R (iterM f l).
Proof.
  intros H. induction l as [|a l IH]; [apply pres_ret|]. apply pres_bind; [apply H|intro; exact IH].
Qed.
Lemma pres_zoom {T A} (RT : T -> T -> Prop) (g : S -> T) (p : T -> S -> S) (m : M T A) :
  (forall s t, RT (g s) t -> R s (p t s)) -> pres RT m -> pres R (zoom g p m).
Proof. intros H P s. unfold zoom. specialize (P (g s)). destruct (m (g s)). apply H, P. Qed.
End Pres.

Lemma pres_mono {S A} (R R' : S -> S -> Prop) (m : M S A) :
  (forall a b, R a b -> R' a b) -> pres R m -> pres R' m.
Proof. intros H P s. apply H, P. Qed.

Lemma preorder_eq {S T} (f : S -> T) : preorder (fun a b => f a = f b).
Proof. split; congruence. Qed.
Lemma preorder_inv {S} (I : S -> Prop) : preorder (fun a b => I a -> I b).
Proof. split; auto. Qed.
Lemma preorder_and {S} (R1 R2 : S -> S -> Prop) :
  preorder R1 -> preorder R2 -> preorder (fun a b => R1 a b /\ R2 a b).
Proof.
  intros [r1 t1] [r2 t2]. split; [auto|]. intros a b c [H1 H2] [H3 H4]. split; eauto.
Qed.

(** Structural descent for [pres]; [leaf] closes goals about [modify] and about
    named operations. *)
Ltac presstep PO leaf :=
  lazymatch goal with
  | |- pres _ (bind _ _) => apply (pres_bind _ PO); [|intro]
  | |- pres _ (ret _) => apply (pres_ret _ PO)
  | |- pres _ (fail _) => apply (pres_fail _ PO)
  | |- pres _ (panic _) => apply (pres_panic _ PO)
  | |- pres _ get => apply (pres_get _ PO)
  | |- pres _ (gets _) => apply (pres_gets _ PO)
  | |- pres _ (of_opt _ _) => apply (pres_of_opt _ PO)
  | |- pres _ (when _ _) => apply (pres_when _ PO)
  | |- pres _ (iterM _ _) => apply (pres_iterM _ PO); intro
  | |- pres _ (match ?x with _ => _ end) => destruct x
  | |- _ => leaf
  end.
Ltac presauto PO leaf := repeat presstep PO leaf.

Global Arguments N.add : simpl never.
Global Arguments N.sub : simpl never.
Global Arguments N.mul : simpl never.
Global Arguments N.leb : simpl never.
Global Arguments N.ltb : simpl never.
Global Arguments N.of_nat : simpl never.
