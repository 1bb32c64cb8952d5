(** The message bus: internal/third/bus/broker.go, internal/services/broker.go,
    driver.go:19-27. No proofs here.

    A Go map is a list of key/value pairs with distinct keys, in any order; an iteration over a map
    goes through a permutation of it, chosen anew each time: [shuffle]. A handler
    is represented by its key, its matcher and the name of its function; message
    data, sources and times are not represented; nor are handlers which call the
    broker while a message is delivered. *)
From Verif Require Import Base.

Record handler := mkHandler { hd_key : string; hd_matcher : string; hd_fn : nat }.
Record broker := mkBroker {
  br_next : nat;                               (* Sequential.id: numbers given out so far *)
  br_topics : list (string * list handler);
  br_handlers : list (string * handler)
}.

(** Go maps *)
Fixpoint lookup {V : Type} (k : string) (m : list (string * V)) : option V :=
  match m with
  | [] => None
  | (k', v) :: r => if String.eqb k' k then Some v else lookup k r
  end.
Definition delete {V : Type} (k : string) (m : list (string * V)) : list (string * V) :=
  filter (fun p => negb (String.eqb (fst p) k)) m.
Fixpoint store {V : Type} (k : string) (v : V) (m : list (string * V)) : list (string * V) :=
  match m with
  | [] => [(k, v)]
  | (k', v') :: r => if String.eqb k' k then (k, v) :: r else (k', v') :: store k v r
  end.

(** broker.go:74-85 (New) *)
Definition new_broker : broker := mkBroker 0 [] [].

Section Broker.
(** regexp.MatchString(matcher, topic), an error counting as no match *)
Context (matches : string -> string -> bool).
(** the order of an iteration over a map, chosen by the number of the iteration *)
Context (shuffle : nat -> forall (V : Type), list (string * V) -> list (string * V)).

(** broker.go:317-330 *)
Definition topic_subscriptions (i : nat) (key : string) (b : broker) : list string :=
  match lookup key (br_handlers b) with
  | None => []
  | Some h => map fst (filter (fun p => matches (hd_matcher h) (fst p)) (shuffle i _ (br_topics b)))
  end.
(** broker.go:279-281: append(b.topics[topic], h), a nil slice if there is none *)
Definition register_topic_handler (topic : string) (h : handler) (b : broker) : broker :=
  let hs := match lookup topic (br_topics b) with Some l => l | None => [] end in
  mkBroker (br_next b) (store topic (hs ++ [h]) (br_topics b)) (br_handlers b).
(** broker.go:283-292: the first one with this key is overwritten by the last
    one, and the last place dropped *)
Fixpoint swap_remove_from (key : string) (final : handler) (l : list handler) : option (list handler) :=
  match l with
  | [] => None
  | h :: r =>
      if String.eqb (hd_key h) key then Some (match r with [] => [] | _ => final :: removelast r end)
      else match swap_remove_from key final r with Some r' => Some (h :: r') | None => None end
  end.
Definition swap_remove (key : string) (l : list handler) : list handler :=
  match l with
  | [] => []
  | h :: _ => match swap_remove_from key (last l h) l with Some r => r | None => l end
  end.
Definition deregister_topic_handler (topic key : string) (b : broker) : broker :=
  match lookup topic (br_topics b) with
  | None => b
  | Some l => mkBroker (br_next b) (store topic (swap_remove key l) (br_topics b)) (br_handlers b)
  end.
(** broker.go:270-277 *)
Definition deregister_handler (i : nat) (key : string) (b : broker) : broker :=
  match lookup key (br_handlers b) with
  | None => b
  | Some _ =>
      let b1 := fold_left (fun b t => deregister_topic_handler t key b) (topic_subscriptions i key b) b in
      mkBroker (br_next b1) (br_topics b1) (delete key (br_handlers b1))
  end.
(** broker.go:247-250, 262-268 *)
Definition register_handler (i : nat) (key : string) (h : handler) (b : broker) : broker :=
  let h := mkHandler key (hd_matcher h) (hd_fn h) in
  let b1 := deregister_handler (2 * i) key b in
  let b2 := mkBroker (br_next b1) (br_topics b1) (store key h (br_handlers b1)) in
  fold_left (fun b t => register_topic_handler t h b) (topic_subscriptions (2 * i + 1) key b2) b2.
(** broker.go:306-315 *)
Definition build_handlers (i : nat) (topic : string) (b : broker) : list handler :=
  map snd (filter (fun p => matches (hd_matcher (snd p)) topic) (shuffle i _ (br_handlers b))).
(** broker.go:294-300 *)
Definition register_topic (i : nat) (topic : string) (b : broker) : broker :=
  match lookup topic (br_topics b) with
  | Some _ => b
  | None => mkBroker (br_next b) (store topic (build_handlers i topic b) (br_topics b)) (br_handlers b)
  end.
(** broker.go:302-304 *)
Definition deregister_topic (topic : string) (b : broker) : broker :=
  mkBroker (br_next b) (delete topic (br_topics b)) (br_handlers b).

(** broker.go:123-155 (Emit; [tx]: the transaction id of the context). The
    handlers called, in order, with the message's id and transaction id (the
    numbers which Sequential formats); [None]: the topic is not found. *)
Inductive tx_id := Given (s : string) | Generated (n : nat).
Record delivery := mkDelivery { dl_fn : nat; dl_key : string; dl_id : nat; dl_tx : tx_id }.
Definition emit (topic : string) (tx : option string) (b : broker) : option (list delivery) * broker :=
  match lookup topic (br_topics b) with
  | None => (None, b)
  | Some hs =>
      let '(t, n) := match tx with
        | Some s => (Given s, br_next b)
        | None => (Generated (br_next b + 1), br_next b + 1)
        end in
      (Some (map (fun h => mkDelivery (hd_fn h) (hd_key h) (n + 1) t) hs),
       mkBroker (n + 1) (br_topics b) (br_handlers b))
  end.

(** The operations a user has (a Handler's key is not exported: the user's has none;
    RegisterTopics and DeregisterTopics with several
    topics are several operations: broker.go:202-214). *)
Inductive bus_op :=
| OpRegisterTopic (topic : string)
| OpDeregisterTopic (topic : string)
| OpRegisterHandler (key matcher : string) (fn : nat)
| OpDeregisterHandler (key : string)
| OpEmit (topic : string) (tx : option string).
(** The [i]-th operation *)
Definition apply_op (i : nat) (op : bus_op) (b : broker) : broker * list (option (list delivery)) :=
  match op with
  | OpRegisterTopic t => (register_topic i t b, [])
  | OpDeregisterTopic t => (deregister_topic t b, [])
  | OpRegisterHandler k m f => (register_handler i k (mkHandler "" m f) b, [])
  | OpDeregisterHandler k => (deregister_handler i k b, [])
  | OpEmit t tx => let '(r, b') := emit t tx b in (b', [r])
  end.
Fixpoint apply_ops (i : nat) (ops : list bus_op) (b : broker) : broker * list (option (list delivery)) :=
  match ops with
  | [] => (b, [])
  | op :: r =>
      let '(b1, o1) := apply_op i op b in
      let '(b2, o2) := apply_ops (S i) r b1 in (b2, o1 ++ o2)
  end.
End Broker.

(** internal/services/broker.go:11-35, 43-62 (Reset) *)
Definition service_topics : list string :=
  ["topic:init.plugins"; "topic:intercept.navigator"; "topic:navigation.complete";
   "topic:options.announce"; "topic:options.before"; "topic:options.complete"]%string.
(** driver.go:19-27, done by every Navigate *)
Definition driver_init : bus_op :=
  OpRegisterHandler "badge: navigation-driver" "topic:navigation.complete" 0.
