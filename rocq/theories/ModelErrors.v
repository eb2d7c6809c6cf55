(** The errors of the packages and how they are told apart: the errors.go files and errors/query.go. *)
From Verif Require Import GoBase.

(** A package-level error variable, made by errors.New: the package, the name of the variable, its text.  Two of
    them are the same error iff they are the same variable. *)
Record sentinel := mkSent { se_package : string; se_name : string; se_text : string }.
Definition same_sentinel (a b : sentinel) : bool :=
  String.eqb (se_package a) (se_package b) && String.eqb (se_name a) (se_name b).
(** An error: such a variable, or the result of fmt.Errorf, which has a text and may wrap an error. *)
Inductive error := Sentinel (s : sentinel) | Made (msg : string) (inner : option error).
(** Error() *)
Definition message (e : error) : string := match e with Sentinel s => se_text s | Made m _ => m end.
(** errors.Is of the standard library, for errors of these two kinds and a variable as target *)
Fixpoint errors_is (e : error) (target : sentinel) : bool :=
  match e with
  | Sentinel s => same_sentinel s target
  | Made _ (Some i) => errors_is i target
  | Made _ None => false
  end.

(** fmt.Errorf.  An argument is an error or anything else; of the latter the model has the text that %v, %s or
    %d gives it.  (Simplification: the formats of the repository have no flags, no two %w and no lack or
    surplus of arguments; the text for those is not that of Go.) *)
Inductive farg := AText (s : string) | AErr (e : error).
Fixpoint errorf_from (f : string) (args : list farg) (msg : string) (inner : option error) : error :=
  match f with
  | EmptyString => Made msg inner
  | String "%" (String c r) =>
      match args with
      | AText t :: rest => errorf_from r rest (msg ++ t) inner
      | AErr e :: rest => errorf_from r rest (msg ++ message e) (if Ascii.eqb c "w" then Some e else inner)
      | [] => errorf_from r [] (msg ++ "%!") inner
      end
  | String c r => errorf_from r args (msg ++ String c "") inner
  end.
Definition errorf (f : string) (args : list farg) : error := errorf_from f args "" None.

(** errors/errors.go:22-44 *)
Definition e_not_implemented := mkSent "errors" "ErrNotImplemented" "not implemented".
Definition e_not_supported := mkSent "errors" "ErrNotSupported" "not supported".
Definition e_not_exist := mkSent "errors" "ErrNotExist" "not exist".
Definition e_exist := mkSent "errors" "ErrExist" "exist".
Definition e_not_equal := mkSent "errors" "ErrNotEqual" "not equal".
Definition e_invalid := mkSent "errors" "ErrInvalid" "invalid".
Definition e_not_found := mkSent "errors" "ErrNotFound" "not found".
Definition e_no_rows := mkSent "errors" "ErrNoRows" "no rows".
(** fn/errors.go:22-38 *)
Definition fn_invalid := mkSent "fn" "ErrInvalid" "invalid".
Definition fn_not_found := mkSent "fn" "ErrNotFound" "not found".
Definition fn_no_data := mkSent "fn" "ErrNoData" "no data".
Definition fn_not_supported := mkSent "fn" "ErrNotSupported" "not supported".
Definition fn_not_implemented := mkSent "fn" "ErrNotImplemented" "not implemented".
Definition fn_negative_value := mkSent "fn" "ErrNegativeValue" "negative value".
(** net/errors.go:22-23 *)
Definition net_exist := mkSent "net" "ErrExist" "exist".
Definition net_not_exist := mkSent "net" "ErrNotExist" "not exist".
(** parser/errors.go:22; sql/errors.go:22 is the same variable *)
Definition parser_empty_query := mkSent "parser" "ErrEmptyQuery" "empty query".
(** query/errors.go:22-32 *)
Definition query_invalid := mkSent "query" "ErrInvalid" "invalid".
Definition query_not_found := mkSent "query" "ErrNotFound" "not found".
Definition query_not_supported := mkSent "query" "ErrNotSupported" "not supported".
Definition query_not_set := mkSent "query" "ErrNotSet" "not set".
(** stmt/errors.go:22-25 *)
Definition stmt_invalid := mkSent "stmt" "ErrInvalid" "invalid".
Definition stmt_not_found := mkSent "stmt" "ErrNotFound" "not found".
(** system/errors.go:23-26 *)
Definition system_invalid := mkSent "system" "ErrInvalid" "invalid".
Definition system_not_found := mkSent "system" "ErrNotFound" "not found".
Definition sentinels : list sentinel :=
  [e_not_implemented; e_not_supported; e_not_exist; e_exist; e_not_equal; e_invalid; e_not_found; e_no_rows;
   fn_invalid; fn_not_found; fn_no_data; fn_not_supported; fn_not_implemented; fn_negative_value; net_exist;
   net_not_exist; parser_empty_query; query_invalid; query_not_found; query_not_supported; query_not_set;
   stmt_invalid; stmt_not_found; system_invalid; system_not_found].

(** The functions that make errors of one value; the argument is the text of the value.  errors/errors.go:46-64,
    errors/query.go:21-84, fn/errors.go:44-51, net/errors.go:25-31, query/errors.go:34-66,
    system/errors.go:28-38. *)
Definition constructors : list (string * (string -> error)) :=
  [("errors.NewErrNotImplemented", fun v => errorf "%s is %w" [AText v; AErr (Sentinel e_not_implemented)]);
   ("errors.NewErrNotExist", fun v => errorf "%s is not exists" [AText v]);
   ("errors.NewErrExist", fun v => errorf "%s is not exists" [AText v]);
   ("errors.NewErrNotSupported", fun v => errorf "%s is not supported" [AText v]);
   ("errors.NewErrDatabaseNotExist", fun v => errorf "database (%v) is %w" [AText v; AErr (Sentinel e_not_exist)]);
   ("errors.NewErrTableNotExist", fun v => errorf "table (%v) is %w" [AText v; AErr (Sentinel e_not_exist)]);
   ("errors.NewErrDatabaseExist", fun v => errorf "database (%v) is %w" [AText v; AErr (Sentinel e_exist)]);
   ("errors.NewErrTableExist", fun v => errorf "table (%v) is %w" [AText v; AErr (Sentinel e_exist)]);
   ("errors.NewErrColumnNotExist", fun v => errorf "column (%v) is %w" [AText v; AErr (Sentinel e_not_exist)]);
   ("errors.NewErrColumnValueNotExist", fun v => errorf "column (%v) value is %w" [AText v; AErr (Sentinel e_not_exist)]);
   ("errors.NewErrGroupByColumnValueNotFound", fun v => errorf "group by column (%v) value is %w" [AText v; AErr (Sentinel e_not_found)]);
   ("errors.NewErrPreparedStatementNotExist", fun v => errorf "prepared statement (%v) is %w" [AText v; AErr (Sentinel e_not_exist)]);
   ("errors.NewErrPreparedPortalNotExist", fun v => errorf "prepared portal (%v) is %w" [AText v; AErr (Sentinel e_not_exist)]);
   ("errors.NewErrMultiplePreparedStatementNotSupported", fun v => errorf "multiple prepared statement (%v) is %w" [AText v; AErr (Sentinel e_not_supported)]);
   ("errors.NewErrMultipleTableNotSupported", fun v => errorf "multiple table (%v) is %w" [AText v; AErr (Sentinel e_not_supported)]);
   ("errors.NewErrNoTable", fun v => errorf "no table specified in query (%v)" [AText v]);
   ("fn.NewErrNotSupportedFunction", fun v => errorf "function (%s) %w" [AText v; AErr (Sentinel fn_not_supported)]);
   ("fn.newErrNegativeValue", fun v => errorf "%w: %v" [AErr (Sentinel fn_negative_value); AText v]);
   ("net.newErrConnExist", fun v => errorf "connection (%s) is already %w" [AText v; AErr (Sentinel net_exist)]);
   ("net.newErrConnNotExists", fun v => errorf "connection (%s) is not %w" [AText v; AErr (Sentinel net_not_exist)]);
   ("query.NewErrStatementInvalid", fun v => errorf "statement (%s) %w" [AText v; AErr (Sentinel query_invalid)]);
   ("query.NewErrStatementNotSupported", fun v => errorf "statement (%s) %w" [AText v; AErr (Sentinel query_not_supported)]);
   ("query.newErrColumnNotFound", fun v => errorf "column (%s) %w" [AText v; AErr (Sentinel query_not_found)]);
   ("query.newErrIndexNotFound", fun v => errorf "index (%s) %w" [AText v; AErr (Sentinel query_not_found)]);
   ("query.newErrColumnIndexOutOfRange", fun v => errorf "column index (%d) %w" [AText v; AErr (Sentinel query_not_found)]);
   ("query.newErrNotFoundFunction", fun v => errorf "function (%s) %w" [AText v; AErr (Sentinel query_not_found)]);
   ("query.newErrInvalidDataType", fun v => errorf "data type (%s) %w" [AText v; AErr (Sentinel query_invalid)]);
   ("query.newErrInvaidDataDef", fun v => errorf "data def (%s) %w" [AText v; AErr (Sentinel query_invalid)]);
   ("system.newErrColumnNotFound", fun v => errorf "column %w: %s" [AErr (Sentinel system_not_found); AText v]);
   ("system.newErrInvalidQuery", fun v => errorf "%w query: %s" [AErr (Sentinel system_invalid); AText v]);
   ("system.newErrInvalidColumn", fun v => errorf "%w column : %s" [AErr (Sentinel system_invalid); AText v])].
(** The functions of two values: errors/query.go:56-58, fn/errors.go:40-42. *)
Definition constructors2 : list (string * (string -> string -> error)) :=
  [("errors.NewErrColumnsNotEqual", fun v w => errorf "the number of columns (%d) is %w to the number of schema columns (%d)" [AText v; AErr (Sentinel e_not_equal); AText w]);
   ("fn.newErrInvalidArguments", fun v w => errorf "%w arguments %s(%v)" [AErr (Sentinel fn_invalid); AText v; AText w])].
