(** Default hooks: pref/defaults.go. No proofs here. *)
From Verif Require Import Base Paths Level Kernel.
Local Open Scope string_scope.

(** strings.ToLower (Go standard library). Simplified: only the ASCII letters
    are mapped. *)
Definition lower_ascii (ch : ascii) : ascii :=
  let n := N_of_ascii ch in
  if (65 <=? n)%N && (n <=? 90)%N then ascii_of_N (n + 32) else ch.
Fixpoint to_lower (s : string) : string :=
  match s with
  | EmptyString => EmptyString
  | String ch r => String (lower_ascii ch) (to_lower r)
  end.

(** sort.Slice with the less function [key a < key b]. sort.Slice is not
    stable; this is one of its possible results (insertion sort), the theorems
    about sorting hold for every hook that permutes and sorts. *)
Fixpoint insert_by (key : string -> string) (e : fsnode) (l : list fsnode) : list fsnode :=
  match l with
  | [] => [e]
  | x :: r => if (key (fname e) <=? key (fname x))%string then e :: l else x :: insert_by key e r
  end.
Definition sort_by (key : string -> string) (l : list fsnode) : list fsnode :=
  fold_right (insert_by key) [] l.

(** pref/defaults.go:35-41 *)
Definition case_sensitive_sort : list fsnode -> list fsnode := sort_by (fun s => s).
(** pref/defaults.go:43-49 *)
Definition default_sort : list fsnode -> list fsnode := sort_by to_lower.

(** *** Runes: Go's conversion []rune(s) decodes UTF-8; an invalid byte becomes
    U+FFFD. A rune is modelled by its encoding as produced by string(runes). *)
Definition byte (ch : ascii) : N := N_of_ascii ch.
Definition in_range (lo hi : N) (ch : ascii) : bool := (lo <=? byte ch)%N && (byte ch <=? hi)%N.
Definition cont (ch : ascii) : bool := in_range 128 191 ch.
Definition rune_error : string :=
  String (ascii_of_N 239) (String (ascii_of_N 191) (String (ascii_of_N 189) EmptyString)).

(** unicode/utf8: the ranges of the second byte, for the first bytes of
    sequences of 2, 3 and 4 bytes *)
Definition two (a b : ascii) : bool := in_range 194 223 a && cont b.
Definition three (a b : ascii) : bool :=
  (in_range 224 224 a && in_range 160 191 b) || (in_range 225 236 a && cont b) ||
  (in_range 237 237 a && in_range 128 159 b) || (in_range 238 239 a && cont b).
Definition four (a b : ascii) : bool :=
  (in_range 240 240 a && in_range 144 191 b) || (in_range 241 243 a && cont b) ||
  (in_range 244 244 a && in_range 128 143 b).

Fixpoint runes (s : string) : list string :=
  match s with
  | EmptyString => []
  | String a r1 =>
      if (byte a <? 128)%N then String a EmptyString :: runes r1
      else match r1 with
           | EmptyString => [rune_error]
           | String b r2 =>
               if two a b then String a (String b EmptyString) :: runes r2
               else match r2 with
                    | EmptyString => rune_error :: runes r1
                    | String c r3 =>
                        if three a b && cont c then String a (String b (String c EmptyString)) :: runes r3
                        else match r3 with
                             | EmptyString => rune_error :: runes r1
                             | String d r4 =>
                                 if four a b && cont c && cont d
                                 then String a (String b (String c (String d EmptyString))) :: runes r4
                                 else rune_error :: runes r1
                             end
                    end
           end
  end.

(** string(runes) *)
Definition of_runes (l : list string) : string := String.concat "" l.

(** pref/defaults.go:52-60 (tail) *)
Definition tail (input : string) (offset : nat) : string :=
  let as_runes := runes input in
  if Nat.leb (length as_runes) offset then "" else of_runes (skipn offset as_runes).

(** pref/defaults.go:62-69 (difference): len(parent) counts bytes *)
Definition difference (parent child : string) : string := tail child (String.length parent).

(** pref/defaults.go:71-74 (RootItemSubPathHook) *)
Definition root_item_subpath (tree : string) (_ : bool) (n : node) : string := difference tree (n_path n).

(** pref/defaults.go:76-83 (DefaultSubPathHook) *)
Definition default_subpath (tree : string) (keep : bool) (n : node) : string :=
  if (n_scope n =? ScopeTop)%N then (if keep then seps else "")
  else difference tree (n_dirpart n).
