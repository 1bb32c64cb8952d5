(** The library's errors: core/errors.go, locale/messages-errors.go. What errors.Is
    finds in them and what their Error method says. No proofs here.

    Not in the repository and assumed: errors.New, errors.Wrap and errors.Is of
    github.com/pkg/errors and the standard library; li18ngo.Text renders, in the
    default language, the message of the data with the data's own fields
    (text/template), which fails when the message names a field the data does not
    have. *)
From Verif Require Import Base.
Local Open Scope string_scope.

(** ** Values *)

(** core/errors.go:57-59,79-81,101-103,123-125,146-148,168-170,176-178,198-200,204-206,210-212,216-218,222-224: one
    pointer each, made by errors.New *)
Inductive core_error :=
| InvalidNotificationMuteRequested | InvalidResumeStateTransition | NewItemAlreadyExtended
| MissingListenDetacherFunction | InvalidPeriscopeTreePath | ResumeControllerNotSet
| GuardianCantDecorateItemSealed | BrokerTopicNotFound | DetectedSpawnStackOverflow
| WrongPrimaryFacade | WrongResumeFacade | NilForest.

(** The struct types of locale/messages-errors.go which have nothing but the data:
    28-30, 54-56, 80-82, 106-108, 132-134, 158-160, 223-225, 249-251, 275-277,
    301-303, 327-329, 418-420, 444-446, 470-472, 496-498, 522-524, 548-550,
    574-576, 600-602, 712-714, 815-817 *)
Inductive static_type :=
| FilterIsNil | FilterMissingType | FilterCustomNotSupported | FilterChildGlobExNotSupported
| FilterUndefined | InternalFailedToGetNavigatorDriver | CoreInvalidIncaseFilterDef
| WorkerPoolCreationFailed | InvalidFileSamplingSpecification | InvalidSamplingSpecMissingDirectories
| MissingCustomFilterDefinition | CoreInvalidExtGlobFilterMissingSeparator | PolyFilterIsInvalid
| UsageMissingTreePath | UsageMissingRestorePath | UsageMissingSubscription | UsageMissingHandler
| IDGeneratorFuncCantBeNil | UnEqualConversion | CoreResumeFsMismatch | CorePanicOccurred.

(** The data of an error ([...TemplData]): of one of the types above (the data
    type of the same name) or of an error with details *)
Inductive data :=
| OfStatic (t : static_type)
| IncaseData (pattern : string)        (* messages-errors.go:170-173 *)
| ExtGlobData (pattern : string)       (* messages-errors.go:357-360 *)
| TraverseFsData | ResumeFsData        (* messages-errors.go:626-628, 661-663 *)
| SavedData | NotSavedData.            (* messages-errors.go:723-725, 760-762 *)

(** The types with a Wrapped field; messages-errors.go:183-186, 371-374, 638-641,
    673-676, 735-739, 772-776. A reason is an error. *)
Inductive gerror :=
| Core (k : core_error)
| Static (t : static_type) (d : data)                          (* a struct value *)
| IncaseError (d : data) (w : gerror)                          (* pointers, each different from any other *)
| ExtGlobError (d : data) (w : gerror)
| TraverseFsError (d : data) (w : gerror)
| ResumeFsError (d : data) (w : gerror)
| SavedError (d : data) (w : gerror) (destination : string)
| NotSavedError (d : data) (w : gerror) (reason : gerror)
| Note (message : string) (cause : gerror)                     (* errors.Wrap *)
| Joined (says : string) (l : list gerror)                     (* fmt.Errorf with %w, errors.Join *)
| Other (id : nat) (says : string).                            (* any other error *)

(** ** The variables *)

(** messages-errors.go:32-36, 58-62, 84-88, 110-114, 136-140, 162-166, 227-231,
    253-257, 279-283, 305-309, 331-335, 422-426, 448-452, 474-478, 500-504,
    526-530, 552-556, 578-582, 604-608, 716-720, 819-823. The data of
    ErrPolyFilterIsInvalid is that of another error (450). *)
Definition static_error (t : static_type) : gerror :=
  Static t (match t with PolyFilterIsInvalid => OfStatic FilterIsNil | _ => OfStatic t end).

(** ** The constructors *)
Inductive made :=
| NewInvalidNotificationMuteRequested (notification : string)
| NewInvalidResumeStateTransition (state : string)
| NewNewItemAlreadyExtended (path : string)
| NewMissingHibernationDetacherFunction (state : string)
| NewInvalidPeriscopeRootPath (tree current : string)
| NewResumeControllerNotSet (from : string)
| NewBrokerTopicNotFound (topic : string)
| NewInvalidIncaseFilterDef (pattern : string)
| NewInvalidExtGlobFilterMissingSeparator (pattern : string)
| NewTraverseFsMismatch
| NewResumeFsMismatch
| NewTraversalSaved (destination : string)
| NewTraversalNotSaved (reason : gerror).

(** core/errors.go:43-48,65-70,87-92,109-114,132-137,154-159,184-189;
    messages-errors.go:196-205, 384-393, 651-658, 686-693, 749-757, 788-796 *)
Definition value (m : made) : gerror :=
  match m with
  | NewInvalidNotificationMuteRequested n => Note ("notification: " ++ n) (Core InvalidNotificationMuteRequested)
  | NewInvalidResumeStateTransition s => Note ("state: " ++ s) (Core InvalidResumeStateTransition)
  | NewNewItemAlreadyExtended p => Note ("path: " ++ p) (Core NewItemAlreadyExtended)
  | NewMissingHibernationDetacherFunction s => Note ("state: " ++ s) (Core MissingListenDetacherFunction)
  | NewInvalidPeriscopeRootPath t c => Note ("tree: '" ++ t ++ "', current: '" ++ c ++ "'") (Core InvalidPeriscopeTreePath)
  | NewResumeControllerNotSet f => Note ("from: " ++ f) (Core ResumeControllerNotSet)
  | NewBrokerTopicNotFound t => Note ("topic: " ++ t) (Core BrokerTopicNotFound)
  | NewInvalidIncaseFilterDef p => IncaseError (IncaseData p) (static_error CoreInvalidIncaseFilterDef)
  | NewInvalidExtGlobFilterMissingSeparator p => ExtGlobError (ExtGlobData p) (static_error CoreInvalidExtGlobFilterMissingSeparator)
  | NewTraverseFsMismatch => TraverseFsError TraverseFsData (static_error CoreResumeFsMismatch)
  | NewResumeFsMismatch => ResumeFsError ResumeFsData (static_error CoreResumeFsMismatch)
  | NewTraversalSaved d => SavedError SavedData (static_error CorePanicOccurred) d
  | NewTraversalNotSaved r => NotSavedError NotSavedData (static_error CorePanicOccurred) r
  end.

(** ** errors.Is *)

(** The Unwrap methods: messages-errors.go:192-194, 380-382, 647-649, 682-684,
    745-747, 784-786, and those of the libraries *)
Definition unwrap (e : gerror) : list gerror :=
  match e with
  | Core _ | Static _ _ | Other _ _ => []
  | IncaseError _ w | ExtGlobError _ w | TraverseFsError _ w | ResumeFsError _ w
  | SavedError _ w _ | NotSavedError _ w _ | Note _ w => [w]
  | Joined _ l => l
  end.

(** err == target, for a target which is one of the library's variables: pointers
    by identity, struct values by type and data *)
Definition core_error_eq_dec (a b : core_error) : {a = b} + {a <> b}.
Proof. decide equality. Defined.
Definition static_type_eq_dec (a b : static_type) : {a = b} + {a <> b}.
Proof. decide equality. Defined.
Definition data_eq_dec (a b : data) : {a = b} + {a <> b}.
Proof. decide equality; try apply string_dec; apply static_type_eq_dec. Defined.
Definition same (e target : gerror) : bool :=
  match e, target with
  | Core a, Core b => if core_error_eq_dec a b then true else false
  | Static t d, Static t' d' => if static_type_eq_dec t t' then (if data_eq_dec d d' then true else false) else false
  | _, _ => false
  end.
Fixpoint is (target e : gerror) : bool :=
  same e target ||
  match e with
  | Core _ | Static _ _ | Other _ _ => false
  | IncaseError _ w | ExtGlobError _ w | TraverseFsError _ w | ResumeFsError _ w
  | SavedError _ w _ | NotSavedError _ w _ | Note _ w => is target w
  | Joined _ l => existsb (is target) l
  end.

(** The predicates: core/errors.go:53-55,75-77,97-99,119-121,142-144,164-166,194-196;
    messages-errors.go:211-213, 405-407, 700-702, 803-805 *)
Inductive predicate :=
| IsInvalidNotificationMuteRequested | IsInvalidResumeStateTransition | IsNewItemAlreadyExtended
| IsMissingHibernationDetacherFunction | IsInvalidPeriscopeRootPath | IsResumeControllerNotSet
| IsBrokerTopicNotFound | IsInvalidIncaseFilterDef | IsInvalidExtGlobFilterMissingSeparator
| IsCoreResumeFsMismatch | IsCorePanicOccurred.
Definition target (p : predicate) : gerror :=
  match p with
  | IsInvalidNotificationMuteRequested => Core InvalidNotificationMuteRequested
  | IsInvalidResumeStateTransition => Core InvalidResumeStateTransition
  | IsNewItemAlreadyExtended => Core NewItemAlreadyExtended
  | IsMissingHibernationDetacherFunction => Core MissingListenDetacherFunction
  | IsInvalidPeriscopeRootPath => Core InvalidPeriscopeTreePath
  | IsResumeControllerNotSet => Core ResumeControllerNotSet
  | IsBrokerTopicNotFound => Core BrokerTopicNotFound
  | IsInvalidIncaseFilterDef => static_error CoreInvalidIncaseFilterDef
  | IsInvalidExtGlobFilterMissingSeparator => static_error CoreInvalidExtGlobFilterMissingSeparator
  | IsCoreResumeFsMismatch => static_error CoreResumeFsMismatch
  | IsCorePanicOccurred => static_error CorePanicOccurred
  end.
Definition answers (p : predicate) (e : gerror) : bool := is (target p) e.

(** ** Texts *)

(** core/errors.go:57-59 and so on *)
Definition core_text (k : core_error) : string :=
  match k with
  | InvalidNotificationMuteRequested => "invalid notification mute requested"
  | InvalidResumeStateTransition => "invalid resume state transition detected"
  | NewItemAlreadyExtended => "item already extended for item"
  | MissingListenDetacherFunction => "missing listen detacher function"
  | InvalidPeriscopeTreePath => "tree path can't be longer than current"
  | ResumeControllerNotSet => "resume controller not set"
  | GuardianCantDecorateItemSealed => "can't decorate, last item is sealed"
  | BrokerTopicNotFound => "broker topic not found"
  | DetectedSpawnStackOverflow => "spawn resume stack-overflow protection"
  | WrongPrimaryFacade => "wrong primary facade"
  | WrongResumeFacade => "wrong resume facade"
  | NilForest => "forest is nil"
  end.

(** The Other field of the Message methods: messages-errors.go:20-26, 46-52, 72-78,
    98-104, 124-130, 150-156, 175-181, 215-221, 241-247, 267-273, 293-299,
    319-325, 363-369, 410-416, 436-442, 462-468, 488-494, 514-520, 540-546, 566-572,
    592-598, 630-636, 665-671, 704-710, 727-733, 764-770, 807-813 *)
Definition message (d : data) : string :=
  match d with
  | OfStatic FilterIsNil => "filter is nil"
  | OfStatic FilterMissingType => "filter missing type"
  | OfStatic FilterCustomNotSupported => "custom filter not supported for children"
  | OfStatic FilterChildGlobExNotSupported => "glob-ex filter not supported for children"
  | OfStatic FilterUndefined => "filter is undefined"
  | OfStatic InternalFailedToGetNavigatorDriver => "failed to get navigator driver"
  | OfStatic CoreInvalidIncaseFilterDef => "invalid incase filter definition; pattern is missing separator"
  | OfStatic WorkerPoolCreationFailed => "failed to create worker pool"
  | OfStatic InvalidFileSamplingSpecification => "invalid file sampling specification, missing no of files"
  | OfStatic InvalidSamplingSpecMissingDirectories => "invalid file sampling specification, missing no of directories"
  | OfStatic MissingCustomFilterDefinition => "missing custom filter definition (config error)"
  | OfStatic CoreInvalidExtGlobFilterMissingSeparator => "invalid glob ex filter definition; pattern is missing separator"
  | OfStatic PolyFilterIsInvalid => "poly filter definition is invalid"
  | OfStatic UsageMissingTreePath => "usage missing tree path"
  | OfStatic UsageMissingRestorePath => "usage missing restore path"
  | OfStatic UsageMissingSubscription => "usage missing subscription"
  | OfStatic UsageMissingHandler => "usage missing handler"
  | OfStatic IDGeneratorFuncCantBeNil => "id generator func can't be nil"
  | OfStatic UnEqualConversion => "unequal JSON conversion"
  | OfStatic CoreResumeFsMismatch => "resume file system mismatch"
  | OfStatic CorePanicOccurred => "panic occurred"
  | IncaseData _ => "pattern: {{.Pattern}}"
  | ExtGlobData _ => "pattern: {{.Pattern}}"
  | TraverseFsData => "traverse-fs"
  | ResumeFsData => "resume-fs"
  | SavedData => "traversal saved: {{.Field}}"
  | NotSavedData => "field: {{.Reason}}"
  end.
(** The exported fields of the data *)
Definition fields (d : data) : list (string * string) :=
  match d with
  | IncaseData p | ExtGlobData p => [("Pattern", p)]
  | _ => []
  end.

(** text/template, as far as it is used: actions of the form {{.Name}} *)
Fixpoint field (l : list (string * string)) (name : string) : option string :=
  match l with
  | [] => None
  | (k, v) :: r => if String.eqb k name then Some v else field r name
  end.
(** The name up to the closing braces *)
Fixpoint action_name (s : string) : string :=
  match s with
  | String a ((String b _) as r) =>
      if Ascii.eqb a "}" && Ascii.eqb b "}" then "" else String a (action_name r)
  | _ => s
  end.
(** [skip]: characters of an action already rendered *)
Fixpoint render (l : list (string * string)) (skip : nat) (s : string) : option string :=
  match s with
  | EmptyString => Some EmptyString
  | String a r =>
      match skip with
      | S k => render l k r
      | O =>
          match s with
          | String "{" (String "{" (String "." name)) =>
              let n := action_name name in
              match field l n, render l (String.length n + 4) r with
              | Some v, Some rest => Some (v ++ rest)
              | _, _ => None
              end
          | _ => option_map (String a) (render l 0 r)
          end
      end
  end.
(** li18ngo.Text; [None]: the template cannot be executed, because it names a field
    its data does not have. What li18ngo.Text does then (panic, or an incomplete
    text) is not assumed; nor is the log entry mediator.go:123-125 makes of it. *)
Definition localised (d : data) : option string := render (fields d) 0 (message d).

Definition both (x y : option string) (f : string -> string -> string) : option string :=
  match x, y with Some a, Some b => Some (f a b) | _, _ => None end.
(** The Error methods: messages-errors.go:188-190, 376-378, 643-645, 678-680,
    741-743, 778-782; [None]: the text cannot be rendered *)
Fixpoint text (e : gerror) : option string :=
  match e with
  | Core k => Some (core_text k)
  | Static _ d => localised d
  | IncaseError d w | ExtGlobError d w | SavedError d w _ => both (text w) (localised d) (fun a b => a ++ ", " ++ b)
  | TraverseFsError d w | ResumeFsError d w => both (text w) (localised d) (fun a b => b ++ ", " ++ a)
  | NotSavedError d w r => both (both (text w) (localised d) (fun a b => a ++ ", " ++ b)) (text r) (fun a b => a ++ " (" ++ b ++ ")")
  | Note m c => option_map (fun t => m ++ ": " ++ t) (text c)
  | Joined says _ | Other _ says => Some says
  end.

(** The Go value of an error of the model (Base.v) which Navigate returns after a
    panic (navigator-agent.go:131-142); [go] for all others *)
Definition go_error (go : error -> gerror) (e : error) : gerror :=
  match e with
  | TraversalSaved d => value (NewTraversalSaved d)
  | TraversalNotSaved r => value (NewTraversalNotSaved (go r))
  | _ => go e
  end.

(** synchronise.go:98-101: the error when the pool cannot be made, the first time and
    later (60-62) *)
Definition pool_failure (first : bool) (e : gerror) : gerror :=
  if first then Note "failed to create worker pool" e else e.
