(** What the error codes and classes should say. *)
From Verif Require Import GoBase ModelErr.

(** The classes as documented: the comments of class.go:23-107 (which follow the PostgreSQL manual,
    appendix A). *)
Definition documented_classes : list (string * string) :=
  [("00", "Successful Completion"); ("01", "Warning"); ("02", "No Data"); ("03", "SQL Statement Not Yet Complete");
   ("08", "Connection Exception"); ("09", "Triggered Action Exception"); ("0A", "Feature Not Supported");
   ("0B", "Invalid Transaction Initiation"); ("0F", "Locator Exception"); ("0L", "Invalid Grantor");
   ("0P", "Invalid Role Specification"); ("0Z", "Diagnostics Exception"); ("20", "Case Not Found");
   ("21", "Cardinality Violation"); ("22", "Data Exception"); ("23", "Integrity Constraint Violation");
   ("24", "Invalid Cursor State"); ("25", "Invalid Transaction State"); ("26", "Invalid SQL Statement Name");
   ("27", "Triggered Data Change Violation"); ("28", "Invalid Authorization Specification");
   ("2B", "Dependent Privilege Descriptors Still Exist"); ("2D", "Invalid Transaction Termination");
   ("2F", "SQL Routine Exception"); ("34", "Invalid Cursor Name"); ("38", "External Routine Exception");
   ("39", "External Routine Invocation Exception"); ("3B", "Savepoint Exception"); ("3D", "Invalid Catalog Name");
   ("3F", "Invalid Schema Name"); ("40", "Transaction Rollback"); ("42", "Syntax Error or Access Rule Violation");
   ("44", "WITH CHECK OPTION Violation"); ("53", "Insufficient Resources"); ("54", "Program Limit Exceeded");
   ("55", "Object Not In Prerequisite State"); ("57", "Operator Intervention"); ("58", "System Error");
   ("F0", "Configuration File Error"); ("HV", "Foreign Data Wrapper Error (SQL/MED)"); ("P0", "PL/pgSQL Error");
   ("XX", "Internal Error")].

(** a text without anything but its letters and digits, in lower case *)
Definition alnum (c : ascii) : bool :=
  let n := nat_of_ascii c in
  (48 <=? n) && (n <=? 57) || (65 <=? n) && (n <=? 90) || (97 <=? n) && (n <=? 122).
Fixpoint letters (s : string) : string :=
  match s with
  | EmptyString => ""
  | String c r => if alnum c then String (lower_ascii c) (letters r) else letters r
  end.
(** the class of a code: its first two characters *)
Definition class_of (code : string) : string := substring 0 2 code.
