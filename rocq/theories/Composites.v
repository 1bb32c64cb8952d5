(** The composite entry points: composites.go. No proofs here. *)
From Verif Require Import Base Options.

(** What Walk or Run, Configure and Extent(Prime or Resume) are applied to
    (director.go:75-104, factories.go). The wait group is not represented. *)
Inductive pace := Sequential | Concurrent.
Inductive extent := PrimeExtent | ResumeExtent.
Record navigator := mkNavigator {
  nv_pace : pace;
  nv_extent : extent;
  nv_facade : facade;
  nv_settings : list (option setting)
}.
Definition scenario : Type := facade -> list (option setting) -> navigator.

(** composites.go:210-236 *)
Definition slow_prime : scenario := mkNavigator Sequential PrimeExtent.
Definition slow_resume : scenario := mkNavigator Sequential ResumeExtent.
Definition fast_prime : scenario := mkNavigator Concurrent PrimeExtent.
Definition fast_resume : scenario := mkNavigator Concurrent ResumeExtent.

(** composites.go:73-93 *)
Definition hydra (is_walk is_prime : bool) : scenario :=
  if is_walk && is_prime then slow_prime
  else if is_walk && negb is_prime then slow_resume
  else if negb is_walk && is_prime then fast_prime
  else fast_resume.
(** composites.go:122-132 *)
Definition hare (is_prime : bool) : scenario := if is_prime then fast_prime else fast_resume.
(** composites.go:163-169 *)
Definition tortoise (is_prime : bool) : scenario := if is_prime then slow_prime else slow_resume.
(** composites.go:200-208 *)
Definition goldfish (is_walk : bool) : scenario := if is_walk then slow_prime else fast_prime.
