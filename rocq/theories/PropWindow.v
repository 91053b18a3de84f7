(** C01: the replay window accepts exactly the fresh, recent record numbers. *)
From Verif Require Import Prelude Window WindowProofs.

(** For every history of arrivals (number, authenticated or not): a number is
    admitted exactly when it was not admitted before and is less than 64 below the
    newest admitted one. *)
Theorem C01_replay_window_exact : forall evs s,
  window_check (fst (arrivals evs)) s = true <-> acceptable (snd (arrivals evs)) s.
Proof. exact window_exact. Qed.
Print Assumptions C01_replay_window_exact.

(** No record number is admitted twice. *)
Theorem C01_no_number_admitted_twice : forall evs, NoDup (snd (arrivals evs)).
Proof. exact arrivals_nodup. Qed.
Print Assumptions C01_no_number_admitted_twice.

(** A history with reordering, a replay, a forged record and a stale record. *)
Example C01_case :
  let evs := [(5, true); (3, true); (5, true); (100, false); (70, true); (6, true); (7, true)] in
  snd (arrivals evs) = [7; 70; 3; 5] /\
  window_check (fst (arrivals evs)) 8 = true /\ window_check (fst (arrivals evs)) 6 = false.
Proof. vm_compute. auto. Qed.
