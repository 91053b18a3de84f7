(** Model of src/window.rs: the sliding replay window. *)
From Verif Require Import Prelude.

(** src/window.rs:8-12 [struct ReplayWindow] *)
Record ReplayWindow := mkWindow { w_max : N; w_bits : N }.

(** src/window.rs:15-17 [new] *)
Definition window_new : ReplayWindow := mkWindow 0 0.

(** src/window.rs:21-32 [check] *)
Definition window_check (w : ReplayWindow) (s : N) : bool :=
  if w_max w <? s then true
  else
    let offset := w_max w - s in
    if 64 <=? offset then false
    else N.land (w_bits w) (N.shiftl 1 offset) =? 0.

(** src/window.rs:36-53 [update]; [<<=] on u64 drops the high bits. *)
Definition window_update (w : ReplayWindow) (s : N) : ReplayWindow :=
  if w_max w <? s then
    let delta := s - w_max w in
    if 63 <? delta then mkWindow s 1
    else mkWindow s (N.lor (u64 (N.shiftl (w_bits w) delta)) 1)
  else
    let offset := w_max w - s in
    if offset <? 64 then mkWindow (w_max w) (N.lor (w_bits w) (N.shiftl 1 offset))
    else w.
