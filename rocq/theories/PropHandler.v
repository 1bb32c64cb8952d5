(** Properties: the panic handler and the rest of the session. *)
From Verif Require Import Base Paths Level Lo Collections Kernel Session Spec Simulate Cases Resume SpecResume
  HandlerFacts ResumeCases.
Local Open Scope string_scope.
Local Open Scope list_scope.

(** *** C104: with another panic handler [rc] the same happens *)

(** The visits with what the callback returned, the notifications, the depth, the
    metrics: the whole final state is the same. The outcomes are the same unless
    the panic handler was asked, and then both are the error of a panic. *)
Theorem c104_handler_reaches_only_the_error : forall c rc sampling t o1 s1 o2 s2,
  session c sampling t = (o1, s1) -> session (with_rescue rc c) sampling t = (o2, s2) ->
  alike o1 o2 /\ s1 = s2.
Proof. exact session_handler. Qed.
Print Assumptions c104_handler_reaches_only_the_error.
Theorem c104_spawn_handler : forall c rc sampling pc dk sv o1 k1 s1 o2 k2 s2,
  spawn_session c sampling pc dk sv = (o1, k1, s1) -> spawn_session (with_rescue rc c) sampling pc dk sv = (o2, k2, s2) ->
  alike o1 o2 /\ k1 = k2 /\ s1 = s2.
Proof. exact spawn_handler. Qed.
Print Assumptions c104_spawn_handler.
Theorem c104_fastward_handler : forall linked c rc sampling pc dk sv o1 s1 o2 s2,
  fastward_session linked c sampling pc dk sv = (o1, s1) ->
  fastward_session linked (with_rescue rc c) sampling pc dk sv = (o2, s2) -> alike o1 o2 /\ s1 = s2.
Proof. exact fastward_handler. Qed.
Print Assumptions c104_fastward_handler.

(** A panic at /r/A/x; one handler saves to "here", the other fails. *)
Example c104_case :
  let c := with_client (answer "/r/A/x" (CPanic (PVal 7))) (base_cfg SubUniversal) in
  let saves := with_rescue (fun _ _ _ => inl "here") c in
  let fails := with_rescue (fun _ _ _ => inr (Err (Plain 9))) c in
  fst (session saves false tree1) = Ret (Some (TraversalSaved "here")) /\
  fst (session fails false tree1) = Ret (Some (TraversalNotSaved (Err (Plain 9)))) /\
  map n_path (visited (snd (session saves false tree1))) = ["/r"; "/r/A"; "/r/A/B"; "/r/A/B/y"; "/r/A/x"] /\
  map n_path (visited (snd (session fails false tree1))) = ["/r"; "/r/A"; "/r/A/B"; "/r/A/B/y"; "/r/A/x"].
Proof. vm_compute. repeat split; reflexivity. Qed.
