(** Specification vocabulary for DTLS 1.3, written without the model's codecs. *)
From Verif Require Import Prelude Spec.

(** ** Unified header (RFC 9147, 4): [001CSLEE], then an 8- or 16-bit record
    number, an optional 16-bit length, the fragment.  No connection id. *)
Definition is_unified (wire : bytes) (s16 has_len : bool) (epoch2 seq : N) (fragment : bytes)
  : Prop :=
  exists num lenf,
    wire = (2^5 + (if s16 then 2^3 else 0) + (if has_len then 2^2 else 0) + epoch2)
             :: num ++ lenf ++ fragment /\
    epoch2 < 2^2 /\
    (if s16 then exists q1 q0, num = [q1; q0] /\ seq = q1 * 2^8 + q0 else num = [seq]) /\
    (if has_len then exists l1 l0, lenf = [l1; l0] /\
                                   N.of_nat (length fragment) = l1 * 2^8 + l0
     else lenf = []).

(** The plaintext header has the DTLS 1.2 layout; only epoch 0, alert, handshake
    and ACK records use it. *)
Definition valid_plain13 (ctype version epoch : N) : Prop :=
  (version = 65279 (* FE FF *) \/ version = 65277 (* FE FD *)) /\ epoch = 0 /\
  (ctype = 21 \/ ctype = 22 \/ ctype = 26).

(** ** ACK (RFC 9147, 7): length of the list in bytes, then 64-bit epoch and
    64-bit number of each record. *)
Fixpoint value (l : bytes) : N :=
  match l with
  | [] => 0
  | x :: r => x * 256 ^ N.of_nat (length r) + value r
  end.
Inductive ack_list : bytes -> list (N * N) -> Prop :=
| ack_nil : ack_list [] []
| ack_cons : forall eb qb l es, length eb = 8%nat -> length qb = 8%nat -> ack_list l es ->
    ack_list (eb ++ qb ++ l) ((value eb, value qb) :: es).
Definition is_ack (wire : bytes) (es : list (N * N)) : Prop :=
  exists l1 l0 body, wire = l1 :: l0 :: body /\ N.of_nat (length body) = l1 * 2^8 + l0 /\
    ack_list body es.
