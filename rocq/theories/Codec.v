(** Generic pieces of the message codecs.

    All parse failures are one value, [None]: callers turn every [nom] error
    into the same transient error (src/error.rs:708-716), so the difference
    between [Err::Error] and [Err::Failure] is not observable, except inside
    [many0]/[many1] where [Error] stops the list; for the fixed-width item
    parsers used here that only happens on a short tail, which every caller then
    rejects as trailing bytes. *)
From Verif Require Import Prelude.

(** A list of fixed-width big-endian integers filling the whole input, of which
    those satisfying [keep] are collected.  src/util.rs:8-100 [many0]/[many1]
    with the callers' [!rest.is_empty()] check, and the hand written loops in
    the extension parsers.  Overflow of the [ArrayVec] of capacity [cap] is an
    error. *)
Fixpoint p_items (fuel k : nat) (keep : N -> bool) (l : bytes) : option (list N) :=
  match l with
  | [] => Some []
  | _ :: _ =>
    match fuel with
    | O => None
    | S f =>
      match p_be k l with
      | None => None
      | Some (v, r) =>
        match p_items f k keep r with
        | None => None
        | Some vs => Some (if keep v then v :: vs else vs)
        end
      end
    end
  end.

Definition p_list (k : nat) (keep : N -> bool) (cap : nat) (l : bytes) : option (list N) :=
  match p_items (length l) k keep l with
  | None => None
  | Some vs => if Nat.leb (length vs) cap then Some vs else None
  end.

(** [many1]: additionally at least one item must have been kept. *)
Definition p_list1 (k : nat) (keep : N -> bool) (cap : nat) (l : bytes) : option (list N) :=
  match p_list k keep cap l with
  | Some [] => None
  | r => r
  end.

Definition s_items (k : nat) (vs : list N) : bytes := flat_map (be k) vs.

(** Length-prefixed opaque vector: [be_uN] then [take]. *)
Definition p_vec (k : nat) (l : bytes) : option (bytes * bytes) :=
  match p_be k l with
  | None => None
  | Some (n, r) => take (N.to_nat n) r
  end.

(** The length is written with [as u8]/[as u16]/[to_be_bytes()[1..]], that is,
    truncated to the field width. *)
Definition s_vec (k : nat) (v : bytes) : bytes := be k (len v) ++ v.

(** src/dtls12/message/extension.rs:15-38, src/dtls13/message/extension.rs
    [Extension::parse].  Ranges into the buffer are replaced by the bytes they
    denote. *)
Definition p_ext (l : bytes) : option ((N * bytes) * bytes) :=
  '(t, l) <-? p_u16 l ;;
  '(d, l) <-? p_vec 2 l ;;
  Some ((t, d), l).

(** src/dtls12/message/extension.rs:44-51 [Extension::serialize] *)
Definition s_ext (e : N * bytes) : bytes := be 2 (fst e) ++ s_vec 2 (snd e).

(** src/dtls12/message/client_hello.rs:191-216, server_hello.rs:115-140 and the
    DTLS 1.3 equivalents: parse every extension, keep the supported types,
    reject a repeated supported type.  The [ArrayVec] capacity equals the number
    of supported types, so it cannot overflow once duplicates are rejected. *)
Fixpoint p_exts_loop (fuel : nat) (keep : N -> bool) (l : bytes) (acc : list (N * bytes))
  : option (list (N * bytes)) :=
  match l with
  | [] => Some (rev acc)
  | _ :: _ =>
    match fuel with
    | O => None
    | S f =>
      match p_ext l with
      | None => None
      | Some (e, r) =>
        if keep (fst e) then
          if memN (fst e) (map fst acc) then None
          else p_exts_loop f keep r (e :: acc)
        else p_exts_loop f keep r acc
      end
    end
  end.

Definition p_exts (keep : N -> bool) (l : bytes) : option (list (N * bytes)) :=
  p_exts_loop (length l) keep l [].

Definition s_exts (es : list (N * bytes)) : bytes := flat_map s_ext es.

(** First extension of a given type. *)
Fixpoint find_ext (t : N) (es : list (N * bytes)) : option bytes :=
  match es with
  | [] => None
  | (t', d) :: r => if t =? t' then Some d else find_ext t r
  end.

(** Items of the form length-prefixed vector filling the input
    (certificate lists, distinguished names); at least [minl] bytes each. *)
Fixpoint p_vecs (fuel k : nat) (minl : nat) (l : bytes) : option (list bytes) :=
  match l with
  | [] => Some []
  | _ :: _ =>
    match fuel with
    | O => None
    | S f =>
      match p_vec k l with
      | None => None
      | Some (v, r) =>
        if Nat.ltb (length v) minl then None
        else match p_vecs f k minl r with
             | None => None
             | Some vs => Some (v :: vs)
             end
      end
    end
  end.

Definition s_vecs (k : nat) (vs : list bytes) : bytes := flat_map (s_vec k) vs.
