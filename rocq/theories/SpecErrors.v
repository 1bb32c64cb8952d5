(** Specification of the library's errors, in its own terms. *)
From Verif Require Import Base Errors.
Local Open Scope string_scope.

(** An error found by unwrapping another, any number of times. *)
Inductive inside (x : gerror) : gerror -> Prop :=
| in_self : inside x x
| in_unwrap : forall e w, In w (unwrap e) -> inside x w -> inside x e.

(** The predicate which is meant for a constructor. *)
Inductive meant_for : predicate -> made -> Prop :=
| mf_mute : forall n, meant_for IsInvalidNotificationMuteRequested (NewInvalidNotificationMuteRequested n)
| mf_transition : forall s, meant_for IsInvalidResumeStateTransition (NewInvalidResumeStateTransition s)
| mf_extended : forall p, meant_for IsNewItemAlreadyExtended (NewNewItemAlreadyExtended p)
| mf_detacher : forall s, meant_for IsMissingHibernationDetacherFunction (NewMissingHibernationDetacherFunction s)
| mf_periscope : forall t c, meant_for IsInvalidPeriscopeRootPath (NewInvalidPeriscopeRootPath t c)
| mf_controller : forall f, meant_for IsResumeControllerNotSet (NewResumeControllerNotSet f)
| mf_topic : forall t, meant_for IsBrokerTopicNotFound (NewBrokerTopicNotFound t)
| mf_incase : forall p, meant_for IsInvalidIncaseFilterDef (NewInvalidIncaseFilterDef p)
| mf_extglob : forall p, meant_for IsInvalidExtGlobFilterMissingSeparator (NewInvalidExtGlobFilterMissingSeparator p)
| mf_traverse : meant_for IsCoreResumeFsMismatch NewTraverseFsMismatch
| mf_resume : meant_for IsCoreResumeFsMismatch NewResumeFsMismatch
| mf_saved : forall d, meant_for IsCorePanicOccurred (NewTraversalSaved d)
| mf_not_saved : forall r, meant_for IsCorePanicOccurred (NewTraversalNotSaved r).

(** The exported variables of the two packages. *)
Definition exported_static (t : static_type) : Prop :=
  t <> CoreInvalidIncaseFilterDef /\ t <> CoreInvalidExtGlobFilterMissingSeparator.
Definition exported_core (k : core_error) : Prop :=
  In k [GuardianCantDecorateItemSealed; DetectedSpawnStackOverflow; WrongPrimaryFacade; WrongResumeFacade; NilForest].

(** Errors as a client can meet or make them: the exported variables, what the
    constructors return, other errors, and all these wrapped and joined. *)
Inductive client_error : gerror -> Prop :=
| ce_static : forall t, exported_static t -> client_error (static_error t)
| ce_core : forall k, exported_core k -> client_error (Core k)
| ce_made : forall m, client_error (value m)
| ce_other : forall i s, client_error (Other i s)
| ce_note : forall m e, client_error e -> client_error (Note m e)
| ce_joined : forall m l, (forall e, In e l -> client_error e) -> client_error (Joined m l).

(** What the text of an error must contain. *)
Definition contains (s part : string) : Prop := exists a b, s = a ++ part ++ b.
(** The particulars given to a constructor *)
Definition particulars (m : made) : list string :=
  match m with
  | NewInvalidNotificationMuteRequested x | NewInvalidResumeStateTransition x | NewNewItemAlreadyExtended x
  | NewMissingHibernationDetacherFunction x | NewResumeControllerNotSet x | NewBrokerTopicNotFound x
  | NewInvalidIncaseFilterDef x | NewInvalidExtGlobFilterMissingSeparator x | NewTraversalSaved x => [x]
  | NewInvalidPeriscopeRootPath t c => [t; c]
  | NewTraversalNotSaved r => match text r with Some x => [x] | None => [] end
  | NewTraverseFsMismatch | NewResumeFsMismatch => []
  end.
(** What it says has happened *)
Definition complaint (m : made) : string :=
  match m with
  | NewInvalidNotificationMuteRequested _ => "invalid notification mute requested"
  | NewInvalidResumeStateTransition _ => "invalid resume state transition detected"
  | NewNewItemAlreadyExtended _ => "item already extended"
  | NewMissingHibernationDetacherFunction _ => "missing listen detacher function"
  | NewInvalidPeriscopeRootPath _ _ => "tree path can't be longer than current"
  | NewResumeControllerNotSet _ => "resume controller not set"
  | NewBrokerTopicNotFound _ => "broker topic not found"
  | NewInvalidIncaseFilterDef _ => "pattern is missing separator"
  | NewInvalidExtGlobFilterMissingSeparator _ => "pattern is missing separator"
  | NewTraverseFsMismatch => "traverse-fs, resume file system mismatch"
  | NewResumeFsMismatch => "resume-fs, resume file system mismatch"
  | NewTraversalSaved _ | NewTraversalNotSaved _ => "panic occurred"
  end.
(** Whether an error comes from a panic *)
Definition from_panic (m : made) : Prop :=
  match m with NewTraversalSaved _ | NewTraversalNotSaved _ => True | _ => False end.
