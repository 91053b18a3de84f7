(** src/dtls13/engine.rs:2288-2307: reconstruction of a truncated record number. *)
From Verif Require Import Prelude.

(** src/dtls13/engine.rs:2288-2307 [reconstruct_sequence].  Arguments are below
    2^48 ([partial] below 2^bits), so the [i64] arithmetic cannot overflow. *)
Definition reconstruct_sequence (partial expected bits : N) : N :=
  let window := 2 ^ bits in
  let half := window / 2 in
  let diff := (Z.of_N (partial mod window) - Z.of_N (expected mod window))%Z in
  let diff := (if Z.of_N half <? diff then diff - Z.of_N window
               else if diff <? - Z.of_N half then diff + Z.of_N window
               else diff)%Z in
  Z.to_N (Z.max 0 (Z.of_N expected + diff)).
