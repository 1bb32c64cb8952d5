(** Shared vocabulary of the model: Go errors, panics, outcomes, the file
    system tree, enumerations.  No proofs here. *)
From Coq Require Export Bool Arith ZArith NArith String Ascii List Lia.
Export ListNotations.

(** ** Errors
    A Go [error] is either a sentinel value or a value that wraps other errors
    ([Unwrap() error] or [Unwrap() []error]).
    [SkipDir], [SkipAll]: io/fs sentinels used in
    internal/kernel/navigator-agent.go:172,191,193.
    [CorePanic]: locale/messages-errors.go:735-817 (ErrCorePanicOccurred).
    [Plain n]: any other error value, told apart by [n].
    [TraversalSaved], [TraversalNotSaved]: locale/messages-errors.go:735-801; their fields Destination and
    Reason are exported; both unwrap to ErrCorePanicOccurred, and to nothing else. *)
Inductive sentinel :=
| SkipDir
| SkipAll
| CorePanic
| Plain (n : nat).

Definition sentinel_eqb (a b : sentinel) : bool :=
  match a, b with
  | SkipDir, SkipDir => true
  | SkipAll, SkipAll => true
  | CorePanic, CorePanic => true
  | Plain n, Plain m => Nat.eqb n m
  | _, _ => false
  end.

Inductive error :=
| Err (s : sentinel)
| Wrap (tag : nat) (inner : list error)
| TraversalSaved (destination : string)
| TraversalNotSaved (reason : error).

(** [errors.Is err target] for a sentinel target (Go standard library): the
    error itself or any error in its unwrap tree.  Used at
    navigator-agent.go:172,191,193. *)
Fixpoint errors_is (t : sentinel) (e : error) : bool :=
  match e with
  | Err s => sentinel_eqb s t
  | Wrap _ inner => existsb (errors_is t) inner
  | TraversalSaved _ | TraversalNotSaved _ => sentinel_eqb CorePanic t
  end.

(** ** Panics
    The value handed to [recover()]: an [error] or something else
    (navigator-agent.go:126-129). *)
Inductive panicv :=
| PErr (e : error)
| PVal (n : nat).

(** The runtime error raised by a nil pointer dereference; the Go runtime
    panics with a value that implements [error]. *)
Definition nil_deref : panicv := PErr (Err (Plain 0)).

(** ** Outcomes of model functions
    [Ret]: returned; [Pan]: panicked; [Stuck]: the model ran out of fuel; this
    is no Go behaviour and the theorems show that it does not happen. *)
Inductive outcome (A : Type) :=
| Ret (a : A)
| Pan (p : panicv)
| Stuck.
Arguments Ret {A} a.
Arguments Pan {A} p.
Arguments Stuck {A}.

(** Result of a client callback (core.Client, core/core-defs.go): nil, an error
    or a panic. *)
Inductive cbres :=
| CNil
| CErr (e : error)
| CPanic (p : panicv).

(** ** File system
    A finite tree of named entries.  [fread] is the error which reading the
    directory yields, if any; [finfo] the error of [DirEntry.Info]. Simplified:
    permissions, times, sizes and link targets are left out; the tree does not
    change during a session. *)
Inductive fsnode := FNode {
  fname : string;
  fisdir : bool;
  finfo : option error;
  fread : option error;
  fkids : list fsnode
}.

Definition File (name : string) : fsnode :=
  FNode name false None None [].
Definition Dir (name : string) (kids : list fsnode) : fsnode :=
  FNode name true None None kids.
(** A directory whose reading fails. *)
Definition BadDir (name : string) (e : error) (kids : list fsnode) : fsnode :=
  FNode name true None (Some e) kids.

Fixpoint height (t : fsnode) : nat :=
  match t with
  | FNode _ _ _ _ ks => S (fold_right (fun k m => Nat.max (height k) m) 0 ks)
  end.

(** enums/subscription-en.go *)
Inductive subscription :=
| SubFiles
| SubDirectories
| SubDirectoriesWithFiles
| SubUniversal.

(** enums/role-en.go *)
Inductive role :=
| RoleUndefined
| RoleAnchor
| RoleClientFilter
| RoleHibernate
| RoleSampler
| RoleNanny
| RoleFastward.

Definition role_eqb (a b : role) : bool :=
  match a, b with
  | RoleUndefined, RoleUndefined | RoleAnchor, RoleAnchor
  | RoleClientFilter, RoleClientFilter | RoleHibernate, RoleHibernate
  | RoleSampler, RoleSampler | RoleNanny, RoleNanny
  | RoleFastward, RoleFastward => true
  | _, _ => false
  end.

(** enums/skip-traversal-en.go *)
Inductive skip_traversal := SkipNoneTraversal | SkipDirTraversal | SkipAllTraversal.

(** enums/metric-en.go *)
Inductive metric :=
| FilesInvoked
| FilesFilteredOut
| DirectoriesInvoked
| DirectoriesFilteredOut
| ChildFilesFound
| ChildFilesFilteredOut.

(** enums/hibernation-en.go (the states reachable in
    hibernate-simple-profile.go). *)
Inductive hibstate := HibPending | HibActive | HibRetired.
