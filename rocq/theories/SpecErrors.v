(** What a caller expects of the errors a function makes: the variable that errors.Is should find, by the name of the
    function. *)
From Verif Require Import GoBase.

(** the name of the function, the package and the name of the variable *)
Definition promised : list (string * (string * string)) :=
  [("errors.NewErrNotImplemented", ("errors", "ErrNotImplemented"));
   ("errors.NewErrNotExist", ("errors", "ErrNotExist"));
   ("errors.NewErrExist", ("errors", "ErrExist"));
   ("errors.NewErrNotSupported", ("errors", "ErrNotSupported"));
   ("errors.NewErrDatabaseNotExist", ("errors", "ErrNotExist"));
   ("errors.NewErrTableNotExist", ("errors", "ErrNotExist"));
   ("errors.NewErrDatabaseExist", ("errors", "ErrExist"));
   ("errors.NewErrTableExist", ("errors", "ErrExist"));
   ("errors.NewErrColumnNotExist", ("errors", "ErrNotExist"));
   ("errors.NewErrColumnValueNotExist", ("errors", "ErrNotExist"));
   ("errors.NewErrGroupByColumnValueNotFound", ("errors", "ErrNotFound"));
   ("errors.NewErrPreparedStatementNotExist", ("errors", "ErrNotExist"));
   ("errors.NewErrPreparedPortalNotExist", ("errors", "ErrNotExist"));
   ("errors.NewErrMultiplePreparedStatementNotSupported", ("errors", "ErrNotSupported"));
   ("errors.NewErrMultipleTableNotSupported", ("errors", "ErrNotSupported"));
   ("fn.NewErrNotSupportedFunction", ("fn", "ErrNotSupported"));
   ("fn.newErrNegativeValue", ("fn", "ErrNegativeValue"));
   ("net.newErrConnExist", ("net", "ErrExist"));
   ("net.newErrConnNotExists", ("net", "ErrNotExist"));
   ("query.NewErrStatementInvalid", ("query", "ErrInvalid"));
   ("query.NewErrStatementNotSupported", ("query", "ErrNotSupported"));
   ("query.newErrColumnNotFound", ("query", "ErrNotFound"));
   ("query.newErrIndexNotFound", ("query", "ErrNotFound"));
   ("query.newErrColumnIndexOutOfRange", ("query", "ErrNotFound"));
   ("query.newErrNotFoundFunction", ("query", "ErrNotFound"));
   ("query.newErrInvalidDataType", ("query", "ErrInvalid"));
   ("query.newErrInvaidDataDef", ("query", "ErrInvalid"));
   ("system.newErrColumnNotFound", ("system", "ErrNotFound"));
   ("system.newErrInvalidQuery", ("system", "ErrInvalid"));
   ("system.newErrInvalidColumn", ("system", "ErrInvalid"));
   ("errors.NewErrColumnsNotEqual", ("errors", "ErrNotEqual"));
   ("fn.newErrInvalidArguments", ("fn", "ErrInvalid"))]%string.
(** the functions that do not keep the promise *)
Definition unkept : list string := ["errors.NewErrNotExist"; "errors.NewErrExist"; "errors.NewErrNotSupported"]%string.

(** the text occurs in s *)
Definition within (x s : string) : Prop := exists a b, s = (a ++ x ++ b)%string.
