(** A concurrent run with an output channel (pref.WithOutput, Output.On set):
    synchronise.go:78-107 on top of the system of Pool.v. No proofs here.

    Assumed of the pool (github.com/snivilised/pants, not in the repository), as
    documented in pref/options-concurrency.go:22-47 and concurrent-defs.go:21-26: a
    worker whose function has returned sends the output to the channel before it
    takes anything else, and blocks while the channel is full; the channel is
    closed only after the input is closed and nothing is left to work on; a send may
    be abandoned when it takes too long ([timeouts]; what the pool then does
    besides is not assumed: the theorems which allow it claim nothing about what must
    happen next). The callback returns, and does not panic. *)
From Verif Require Import Base Paths Level Kernel Session Defaults Filters Hooks Life Options Build Pool.
From Coq Require Import Permutation.

(** What the client's On function does with the channel before it returns: receive a
    number of outputs, or all until the channel is closed. *)
Inductive on_wait := Awaits (n : nat) | AwaitsClose.

Section Output.
(** [answer]: what the callback returns; [reading]: a goroutine of the client
    receives from the channel once On has returned; [outsize]: size of the channel *)
Context {job : Type} (answer : job -> option error) (draining timeouts reading : bool) (now size outsize : nat).

(** core/async.go:22-33 (TraverseOutput): the node and the error. The Data field
    is never set. *)
Definition output : Type := job * option error.
Record run := mkRun {
  ru_on : option on_wait;     (* what On still waits for; None: it has returned *)
  ru_pool : pool job;         (* pl_running: the busy workers; pl_done: jobs whose worker is idle again *)
  ru_sending : list job;      (* those of the busy workers whose callback has returned *)
  ru_out : list output;       (* the buffer of the output channel, oldest first *)
  ru_got : list output;       (* received by the client *)
  ru_lost : list job          (* abandoned *)
}.
Definition run_start (w : on_wait) (jobs : list job) : run := mkRun (Some w) (pool_start jobs) [] [] [] [].

(** On is called between making the pool and navigating, by the goroutine which
    navigates (synchronise.go:102-108): until it has returned nothing is sent to
    the input channel, which is not closed either. *)
Inductive ostep : run -> run -> Prop :=
| os_return : forall p sg out got lost,
    ostep (mkRun (Some (Awaits 0)) p sg out got lost) (mkRun None p sg out got lost)
| os_on_receive : forall k p sg x out got lost,
    ostep (mkRun (Some (Awaits (S k))) p sg (x :: out) got lost) (mkRun (Some (Awaits k)) p sg out (got ++ [x]) lost)
| os_on_receive_all : forall p sg x out got lost,
    ostep (mkRun (Some AwaitsClose) p sg (x :: out) got lost) (mkRun (Some AwaitsClose) p sg out (got ++ [x]) lost)
| os_on_closed : forall p got lost, pl_phase p = Returned -> pl_running p = [] ->
    ostep (mkRun (Some AwaitsClose) p [] [] got lost) (mkRun None p [] [] got lost)
| os_move : forall w p p' sg out got lost,            (* a move of Pool.v, other than a worker becoming idle *)
    step draining now size p p' -> pl_done p' = pl_done p ->
    (w = None \/ (pl_todo p' = pl_todo p /\ pl_phase p' = pl_phase p)) ->
    ostep (mkRun w p sg out got lost) (mkRun w p' sg out got lost)
| os_answer : forall w p sg j out got lost,           (* synchronise.go:80: a callback returns *)
    (exists others, Permutation (j :: sg ++ others) (pl_running p)) ->
    ostep (mkRun w p sg out got lost) (mkRun w p (sg ++ [j]) out got lost)
| os_send : forall w p p' sg1 j sg2 out got lost, length out < outsize ->   (* synchronise.go:82-85 *)
    step draining now size p p' -> pl_done p' = pl_done p ++ [j] ->
    ostep (mkRun w p (sg1 ++ j :: sg2) out got lost) (mkRun w p' (sg1 ++ sg2) (out ++ [(j, answer j)]) got lost)
| os_abandon : forall w p p' sg1 j sg2 out got lost, timeouts = true ->
    step draining now size p p' -> pl_done p' = pl_done p ++ [j] ->
    ostep (mkRun w p (sg1 ++ j :: sg2) out got lost) (mkRun w p' (sg1 ++ sg2) out got (lost ++ [j]))
| os_receive : forall p sg x out got lost, reading = true ->
    ostep (mkRun None p sg (x :: out) got lost) (mkRun None p sg out (got ++ [x]) lost).

Inductive osteps : nat -> run -> run -> Prop :=
| oss_nil : forall s, osteps 0 s s
| oss_cons : forall n s1 s2 s3, osteps n s1 s2 -> ostep s2 s3 -> osteps (S n) s1 s3.
End Output.
Arguments run : clear implicits.
Arguments output : clear implicits.
