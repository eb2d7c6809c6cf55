(** Model of sql/query/response/resultset/column_impl.go: the columns of a result. *)
From Verif Require Import GoBase ModelFn ModelQuery ModelAggregate.

(** column_impl.go:34-62 *)
Inductive copt := CoName (n : string) | CoType (t : dtype) | CoConst (c : constraint) | CoFn (f : option func).
Definition copt_apply (col : scol) (o : copt) : scol :=
  match o with
  | CoName n => mkScol n (sc_type col) (sc_const col) (sc_fn col)
  | CoType t => mkScol (sc_name col) t (sc_const col) (sc_fn col)
  | CoConst c => mkScol (sc_name col) (sc_type col) c (sc_fn col)
  | CoFn f => mkScol (sc_name col) (sc_type col) (sc_const col) f
  end.
(** column_impl.go:65-76; the zero of DataType is the first constant of data_type.go:29-70 *)
Definition new_result_column (opts : list copt) : scol := fold_left copt_apply opts (mkScol "" UnknownData 0%N None).
(** column_impl.go:96-98 *)
Definition sc_is_asterisk (col : scol) : bool := String.eqb (sc_name col) "*".
(** column_impl.go:101-106: both branches answer true; [matches] is the regular expression of lines 24-26 *)
Definition sc_is_function (matches : string -> bool) (col : scol) : bool :=
  if matches (sc_name col) then true else true.
(** column_impl.go:109-122 *)
Definition sc_function (col : scol) : option func := sc_fn col.
Definition sc_arguments (col : scol) : list string := match sc_fn col with Some f => f_args f | None => [] end.
(** column_impl.go:125-132 *)
Definition sc_definition_string (col : scol) : string :=
  let str := (sc_name col ++ " " ++ data_type_string (sc_type col))%string in
  let c := constraint_string (sc_const col) in
  if 0 <? String.length c then (str ++ " " ++ c)%string else str.
(** column_impl.go:135-137 *)
Definition sc_string (col : scol) : string := sc_name col.
