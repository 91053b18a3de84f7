(** src/timer.rs: flight retransmission back-off.  Time is in nanoseconds.
    Simplification: [f32] seconds are integer nanoseconds; the jitter is an
    oracle value in [-250ms, 250ms]. Overflow of [Duration] is not modelled. *)
From Verif Require Import Prelude.

Definition ms : N := 1000000.
Definition sec : N := 1000000000.

(** src/timer.rs:9-15 *)
Record Backoff := mkBackoff {
  bo_start : N; bo_retries : N; bo_rto : N; bo_jitter : Z; bo_left : N }.

(** src/timer.rs:18-26 [new] *)
Definition backoff_new (start retries : N) (j : Z) : Backoff :=
  mkBackoff start retries start j retries.
(** src/timer.rs:28-32 [reset] *)
Definition backoff_reset (b : Backoff) (j : Z) : Backoff :=
  mkBackoff (bo_start b) (bo_retries b) (bo_start b) j (bo_retries b).
(** src/timer.rs:34-42 [rto] *)
Definition backoff_rto (b : Backoff) : N :=
  N.max (50 * ms)
    (if (bo_jitter b <? 0)%Z then bo_rto b - Z.to_N (- bo_jitter b)
     else bo_rto b + Z.to_N (bo_jitter b)).
(** src/timer.rs:49-59 [attempt] *)
Definition backoff_attempt (b : Backoff) (j : Z) : Backoff :=
  if bo_left b =? 0 then b
  else mkBackoff (bo_start b) (bo_retries b) (bo_rto b * 2) j (bo_left b - 1).
(** src/timer.rs:61-63 [can_retry] *)
Definition backoff_can_retry (b : Backoff) : bool := 0 <? bo_left b.

(** src/dtls12/engine.rs:117-122, src/dtls13/engine.rs [Timeout] *)
Inductive Timeout := Disabled | Unarmed | Armed (at_ : N).

Definition timeout_is_unarmed (t : Timeout) : bool :=
  match t with Unarmed => true | _ => false end.
Definition timeout_is_disabled (t : Timeout) : bool :=
  match t with Disabled => true | _ => false end.

(** src/dtls12/engine.rs:512: ten years. *)
Definition distant_future : N := 10 * 365 * 24 * 60 * 60 * sec.
