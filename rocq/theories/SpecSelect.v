(** SELECT as users write it. *)
From Verif Require Import GoBase ModelUtil ModelNum ModelFn ModelQuery SpecRound.

Inductive scope := Plainly | OnlyDistinct | AllRows.
(** LIMIT n; LIMIT n OFFSET m; LIMIT a, b *)
Inductive window := NoWindow | First (n : N) | FirstAfter (n m : N) | Comma (a b : N).
(** the direction of an ordering: none, ascending, descending *)
Inductive direction := Unsaid | Up | Down.

Record query := mkQuery {
  q_scope : scope; q_selectors : list selector; q_tables : list table; q_where : condition;
  q_group : list string; q_having : condition; q_order : list (string * direction); q_window : window }.

(** ** Its text *)

Definition literal_text (l : literal) : string :=
  match l_value l, l_type l with VStr s, StringLiteral => "'" ++ s ++ "'" | VStr s, UnknownLiteral => s | _, _ => "" end.
Definition operator_text (o : cmp_op) : string :=
  match o with OpEQ => "=" | OpNEQ => "!=" | OpLT => "<" | OpGT => ">" | OpLE => "<=" | OpGE => ">=" | OpIN => "IN" | OpNIN => "NOT IN" end.
Fixpoint condition_text (e : expr) : string :=
  match e with
  | ECmp o c l => c_name c ++ " " ++ operator_text o ++ " " ++ match l with Some l => literal_text l | None => "" end
  | EAnd a b => condition_text a ++ " AND " ++ condition_text b
  | EOr a b => condition_text a ++ " OR " ++ condition_text b
  end.
Definition selector_text (s : selector) : string :=
  match s with SelCol c => c_name c | SelFn f => f_name f ++ "(" ++ join ", " (f_args f) ++ ")" end.
Definition order_text (o : string * direction) : string := fst o ++ match snd o with Unsaid => "" | Up => " ASC" | Down => " DESC" end.
Definition window_text (w : window) : string :=
  match w with
  | NoWindow => ""
  | First n => " LIMIT " ++ show_N n
  | FirstAfter n m => " LIMIT " ++ show_N n ++ " OFFSET " ++ show_N m
  | Comma a b => " LIMIT " ++ show_N a ++ ", " ++ show_N b
  end.
Definition clause (word : string) (texts : list string) : string := match texts with [] => "" | _ => " " ++ word ++ " " ++ join ", " texts end.
Definition conditions (c : condition) : list string := match c with Some e => [condition_text e] | None => [] end.
Definition query_text (q : query) : string :=
  ("SELECT" ++ match q_scope q with Plainly => "" | OnlyDistinct => " DISTINCT" | AllRows => " ALL" end ++ " "
   ++ join ", " (map selector_text (q_selectors q)) ++ " FROM " ++ join ", " (map t_name (q_tables q))
   ++ clause "WHERE" (conditions (q_where q)) ++ clause "GROUP BY" (q_group q) ++ clause "HAVING" (conditions (q_having q))
   ++ clause "ORDER BY" (map order_text (q_order q)) ++ window_text (q_window q))%string.

(** ** The queries meant *)

Definition window_ok (w : window) : Prop :=
  match w with NoWindow => True | First n => (n < 2 ^ 64)%N | FirstAfter n m | Comma n m => (n < 2 ^ 64)%N /\ (m < 2 ^ 64)%N end.
Record query_ok (q : query) : Prop := {
  qo_selectors : some selector_ok (q_selectors q);
  qo_tables : some from_ok (q_tables q);
  qo_where : condition_ok (q_where q);
  qo_group : Forall any_name (q_group q);
  qo_having : condition_ok (q_having q) /\ (q_group q = [] -> q_having q = None);
  qo_order : Forall (fun o => any_name (fst o)) (q_order q);
  qo_window : window_ok (q_window q)
}.

(** ** What it asks for, as SQL has it: an ordering without direction is ascending, LIMIT a, b skips a rows *)

Definition asked_order (l : list (string * direction)) : list order :=
  map (fun o => mkOrder (fst o) (match snd o with Down => OrderDesc | _ => OrderAsc end)) l.
Definition asked_window (w : window) : limit :=
  match w with NoWindow => mkLimit 0 0 | First n => mkLimit 0 n | FirstAfter n m => mkLimit m n | Comma a b => mkLimit a b end.

Definition said (o : string * direction) : bool := match snd o with Unsaid => false | _ => true end.
Definition no_comma (w : window) : Prop := match w with Comma _ _ => False | _ => True end.

(** ** Queries that differ in one clause *)

Definition with_scope (q : query) (s : scope) : query :=
  mkQuery s (q_selectors q) (q_tables q) (q_where q) (q_group q) (q_having q) (q_order q) (q_window q).
Definition with_group (q : query) (g : list string) : query :=
  mkQuery (q_scope q) (q_selectors q) (q_tables q) (q_where q) g (q_having q) (q_order q) (q_window q).
Definition with_having (q : query) (h : condition) : query :=
  mkQuery (q_scope q) (q_selectors q) (q_tables q) (q_where q) (q_group q) h (q_order q) (q_window q).
Definition with_order (q : query) (o : list (string * direction)) : query :=
  mkQuery (q_scope q) (q_selectors q) (q_tables q) (q_where q) (q_group q) (q_having q) o (q_window q).
Definition with_window (q : query) (w : window) : query :=
  mkQuery (q_scope q) (q_selectors q) (q_tables q) (q_where q) (q_group q) (q_having q) (q_order q) w.
