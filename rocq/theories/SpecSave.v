(** Vocabulary for the theorems about the place where a session is stored. *)
From Verif Require Import Base Kernel Options Persist Save.
Local Open Scope string_scope.

(** A moment of the years 0 to 9999 *)
Definition calendar (t : civil) : Prop :=
  (cv_year t < 10000 /\ cv_month t < 100 /\ cv_day t < 100 /\ cv_hour t < 100 /\ cv_minute t < 100 /\ cv_second t < 100)%N.
(** The same second of the same day (on the wall clock) *)
Definition same_second (t u : civil) : Prop :=
  cv_year t = cv_year u /\ cv_month t = cv_month u /\ cv_day t = cv_day u /\
  cv_hour t = cv_hour u /\ cv_minute t = cv_minute u /\ cv_second t = cv_second u.
Definition ends_in (s e : string) : Prop := exists pre, s = pre ++ e.
(** The document is that of these options and this state. *)
Definition document_of (o : options) (a : active) (v : jv) : Prop := fst (marshal o a None) = Some v.
