(** Model of sql/util/stack.go and sql/util/strings/strings.go. *)
From Verif Require Import GoBase.

(** ** sql/util/stack.go *)

(** stack.go:18-20 [type Stack struct { objects []any }].  The slice is a list, last
    element = top.  [A] is Go's [any] without nil: a nil object is [None] below. *)
Definition stack (A : Type) := list (option A).

(** stack.go:23-28 *)
Definition new_stack {A} : stack A := [].

(** stack.go:31-33 [s.objects = append(s.objects, obj)] *)
Definition push_object {A} (s : stack A) (obj : option A) : stack A := s ++ [obj].

(** stack.go:36-42: nil when empty, else objects[objectCount-1] *)
Definition peek_object {A} (s : stack A) : option A :=
  let object_count := length s in
  if object_count <=? 0 then None else nth (object_count - 1) s None.

(** stack.go:45-53: objects = objects[0:objectCount-1] *)
Definition pop_object {A} (s : stack A) : stack A * option A :=
  let object_count := length s in
  if object_count <=? 0 then (s, None)
  else (firstn (object_count - 1) s, nth (object_count - 1) s None).

(** stack.go:56-58 *)
Definition stack_size {A} (s : stack A) : nat := length s.

(** The exported calls and what each returns. *)
Inductive stack_op (A : Type) := OpPush (o : option A) | OpPop | OpPeek | OpSize.
Arguments OpPush {A} o. Arguments OpPop {A}. Arguments OpPeek {A}. Arguments OpSize {A}.
Inductive stack_out (A : Type) := OutUnit | OutObj (o : option A) | OutSize (n : nat).
Arguments OutUnit {A}. Arguments OutObj {A} o. Arguments OutSize {A} n.

Definition stack_step {A} (s : stack A) (o : stack_op A) : stack A * stack_out A :=
  match o with
  | OpPush x => (push_object s x, OutUnit)
  | OpPop => let (s', r) := pop_object s in (s', OutObj r)
  | OpPeek => (s, OutObj (peek_object s))
  | OpSize => (s, OutSize (stack_size s))
  end.

Fixpoint stack_run {A} (s : stack A) (ops : list (stack_op A)) : stack A * list (stack_out A) :=
  match ops with
  | [] => (s, [])
  | o :: ops' =>
      let (s', r) := stack_step s o in
      let (s'', rs) := stack_run s' ops' in (s'', r :: rs)
  end.

(** ** sql/util/strings/strings.go *)

(** The double quote (byte 34), single quote and back quote. *)
Definition dquote : string := String (ascii_of_nat 34) "".
Definition squote : string := "'".
Definition backquote : string := "`".

(** strings.go:23-25 *)
Definition join_with_space (l : list string) : string := join " " l.
(** strings.go:28-30 *)
Definition join_with_comma (l : list string) : string := join ", " l.
(** strings.go:33-35: strings.Trim with the cutset single quote, double quote *)
Definition unescape_string (s : string) : string := trim (squote ++ dquote)%string s.
(** strings.go:38-40 *)
Definition escape_string (s : string) : string := ("'" ++ s ++ "'")%string.
(** strings.go:53-55: strings.Trim with the cutset single quote, back quote, parentheses *)
Definition unescape_name_string (s : string) : string := trim "'`()" s.
(** strings.go:58-60 *)
Definition escape_name_string (s : string) : string := ("`" ++ s ++ "`")%string.
