(** Shared vocabulary of the model: byte strings, big-endian integers, the
    [nom] primitives the Rust parsers are built from, and outcomes. *)
From Coq Require Export NArith ZArith List Bool Lia.
From Coq Require Import ZifyBool ZifyNat ZifyN.
Export ListNotations.
Open Scope N_scope.

(** ** Bytes *)

Definition byte := N.
Definition bytes := list N.

(** A Rust [u8] is a number below 256. *)
Definition byte_ok (b : N) : Prop := b < 256.
Definition bytes_ok (l : bytes) : Prop := Forall byte_ok l.

Definition byte_okb (b : N) : bool := b <? 256.
Definition bytes_okb (l : bytes) : bool := forallb byte_okb l.

(** [slice.len()] as a number. *)
Definition len {A} (l : list A) : N := N.of_nat (length l).

(** ** Big-endian integers: [to_be_bytes] truncated to [k] bytes, and
    [from_be_bytes]. *)
Fixpoint be (k : nat) (n : N) : bytes :=
  match k with
  | O => []
  | S k' => be k' (n / 256) ++ [n mod 256]
  end.

Definition unbe (l : bytes) : N := fold_left (fun acc b => acc * 256 + b) l 0.

(** ** [nom] primitives.  [nom::bytes::complete::take] and
    [nom::number::complete::be_uN]: fail ([None]) if the input is too short,
    otherwise return the value and the rest of the input.  The distinction
    between [nom::Err::Error] and [nom::Err::Failure] is dropped except where a
    caller looks at it ([many0]/[many1]; see [Codec]). *)
Definition take {A} (n : nat) (l : list A) : option (list A * list A) :=
  if Nat.leb n (length l) then Some (firstn n l, skipn n l) else None.

Definition p_be (k : nat) (l : bytes) : option (N * bytes) :=
  match take k l with
  | Some (h, r) => Some (unbe h, r)
  | None => None
  end.

Definition p_u8  := p_be 1.
Definition p_u16 := p_be 2.
Definition p_u24 := p_be 3.
Definition p_u48 := p_be 6.  (* src/util.rs:102-119 be_u48 *)

Notation "' p <-? e ;; k" :=
  (match e with Some p => k | None => None end)
  (at level 200, p pattern, e at level 100, k at level 200, right associativity).
(** ** Fixed width machine integers *)
Definition u8  (n : N) : N := n mod 2^8.
Definition u16 (n : N) : N := n mod 2^16.
Definition u32 (n : N) : N := n mod 2^32.
Definition u64 (n : N) : N := n mod 2^64.

(** List equality on bytes. *)
Fixpoint beqb (a b : bytes) : bool :=
  match a, b with
  | [], [] => true
  | x :: a', y :: b' => (x =? y) && beqb a' b'
  | _, _ => false
  end.

Definition memN (x : N) (l : list N) : bool := existsb (N.eqb x) l.
