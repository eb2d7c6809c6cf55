(** Specification of objects made from options: what each option gives.  [is_last] is that of SpecFunc.v. *)
From Verif Require Import GoBase ModelUtil ModelNum ModelAggr ModelFn ModelQuery ModelMake.

Definition set_type (s : lit_step) : option ltype := match s with SetType t => Some t | _ => None end.
Definition set_value (s : lit_step) : option value := match s with SetValue v => Some v | _ => None end.

Definition col_name (o : colopt) : option string := match o with CoName s => Some s | _ => None end.
Definition col_def (o : colopt) : option (option data_def) := match o with CoData d => Some d | _ => None end.
Definition col_lit (o : colopt) : option (option literal) := match o with CoLiteral l => Some l | _ => None end.
Definition col_fn (o : colopt) : option (option func) :=
  match o with
  | CoFunction f => Some f
  | CoExecutor e a => Some (Some (mkFunc (exe_type e) (exe_name e) (Some (e, a)) None []))
  | _ => None
  end.
Definition col_args (o : colopt) : option (list string) := match o with CoArgs l => Some l | _ => None end.

Definition sel_orders (o : selopt) : option (list order) := match o with SoOrderBy l => Some l | _ => None end.
Definition sel_window (o : selopt) : option limit := match o with SoLimit off lim => Some (mkLimit off lim) | _ => None end.
Definition sel_group (o : selopt) : option string := match o with SoGroupBy g => Some g | _ => None end.

Definition alt_schema (o : altopt) : option string := match o with AoSchema s => Some s | _ => None end.
Definition alt_rename_to (o : altopt) : option (option table) := match o with AoRenameTo t => Some t | _ => None end.
(** a column is renamed if both names are given *)
Definition alt_rename_column (o : altopt) : option (option (column * column)) :=
  match o with AoRenameColumn (Some f) (Some t) => Some (Some (f, t)) | AoRenameColumn _ _ => Some None | _ => None end.
Definition alt_add_column (o : altopt) : option (option column) := match o with AoAddColumn c => Some c | _ => None end.
Definition alt_add_index (o : altopt) : option (option index) := match o with AoAddIndex i => Some i | _ => None end.
Definition alt_drop_column (o : altopt) : option (option column) := match o with AoDropColumn c => Some c | _ => None end.
Definition alt_drop_index (o : altopt) : option (option index) := match o with AoDropIndex i => Some i | _ => None end.

Definition copy_columns_of (o : copyopt) : option (list column) := match o with CpColumns l => Some l | _ => None end.
(** the name of a format in any case; other texts name none *)
Definition copy_format_of (o : copyopt) : option copy_format :=
  match o with
  | CpFormat s => find (fun f => String.eqb (to_upper s) (copy_format_string f)) [CopyText; CopyCSV; CopyBinary]
  | _ => None
  end.

Section Info.
  Context {V : Type} (to_str : V -> option string) (to_type : V -> result dtype).
  Definition info_catalog (o : infoopt V) : option string := match o with IoCatalog v => to_str v | _ => None end.
  Definition info_schema (o : infoopt V) : option string := match o with IoSchema v => to_str v | _ => None end.
  Definition info_table (o : infoopt V) : option string := match o with IoTable v => to_str v | _ => None end.
  Definition info_name (o : infoopt V) : option string := match o with IoName v => to_str v | _ => None end.
  Definition info_type (o : infoopt V) : option dtype := match o with IoType v => match to_type v with Ok t => Some t | _ => None end | _ => None end.
  (** how an option fails: with ErrInvalid for a value that is no text, with the error of the conversion for a type *)
  Inductive info_fails : infoopt V -> err -> Prop :=
  | if_catalog v : to_str v = None -> info_fails (IoCatalog v) ErrInvalid
  | if_schema v : to_str v = None -> info_fails (IoSchema v) ErrInvalid
  | if_table v : to_str v = None -> info_fails (IoTable v) ErrInvalid
  | if_name v : to_str v = None -> info_fails (IoName v) ErrInvalid
  | if_type v e : to_type v = Err e -> info_fails (IoType v) e.
End Info.
