(** Model of sqltest/util/file.go and of TestQueryDirectoryWithRegex. *)
From Verif Require Import GoBase ModelUtil ModelNum ModelQuery ModelSqltest.

(** What filepath.Walk meets: a file (anything that is no directory, symbolic links included), a directory with its entries in the order
    of their names ([None]: it cannot be read), and an entry that is gone when it is looked at. *)
Inductive node := NFile (name : string) | NDir (name : string) (entries : option (list node)) | NGone (name : string).
Definition node_name (n : node) : string := match n with NFile s | NDir s _ | NGone s => s end.

(** filepath.Join of a clean path and the name of an entry *)
Definition path_join (path name : string) : string := (path ++ "/" ++ name)%string.

(** filepath.Walk with the functions of file.go:78-90 and 108-117, which return no error: one path for each file [keep] accepts.
    An entry that is gone is passed to them without FileInfo, which panics (79, 109); the error of a directory that cannot be read is
    passed to them with its FileInfo, and dropped. *)
Fixpoint walk (keep : string -> bool) (path : string) (n : node) : result (list string) :=
  match n with
  | NFile _ => Ok (if keep path then [path] else [])
  | NGone _ => Panic
  | NDir _ None => Ok []
  | NDir _ (Some es) =>
      (fix entries (es : list node) : result (list string) :=
         match es with
         | [] => Ok []
         | e :: r => rbind (walk keep (path_join path (node_name e)) e) (fun a => rbind (entries r) (fun b => Ok (a ++ b)))
         end) es
  end.

(** What os.Stat and os.Lstat say of the path given: nothing there, no directory, a directory, or a link to a directory. *)
Inductive root := RootNone | RootFile | RootDir (entries : option (list node)) | RootLink (entries : option (list node)).

(** file.go:58-67 *)
Definition is_dir (r : root) : bool := match r with RootDir _ | RootLink _ => true | _ => false end.
(** filepath.Walk uses os.Lstat, to which a link is no directory *)
Definition root_node (r : root) : node :=
  match r with RootDir es => NDir "" es | RootNone => NGone "" | RootFile | RootLink _ => NFile "" end.
Definition list_files (keep : string -> bool) (path : string) (r : root) : result (list string) :=
  if is_dir r then walk keep path (root_node r) else Err ErrOther.

(** filepath.Ext: from the last dot of the last element, over the reversed path *)
Fixpoint ext_rev (r acc : string) : string :=
  match r with
  | EmptyString => ""
  | String c r' => if Ascii.eqb c "/" then "" else if Ascii.eqb c "." then String c acc else ext_rev r' (String c acc)
  end.
Definition path_ext (path : string) : string := ext_rev (srev path) "".

(** file.go:70-97 *)
Definition keep_ext (target path : string) : bool :=
  if 0 <? String.length target then has_suffix target (path_ext path) else true.
Definition list_files_with_extension (target path : string) (r : root) : result (list string) := list_files (keep_ext target) path r.
(** file.go:127-129 *)
Definition list_all_files (path : string) (r : root) : result (list string) := list_files_with_extension "" path r.
(** file.go:100-124; [matches] is the regular expression's MatchString *)
Definition list_files_with_regexp (matches : string -> bool) (path : string) (r : root) : result (list string) := list_files matches path r.

(** query_file_helper.go:107-127 with a regular expression that compiles: the verdicts of all queries of all files, in order, a panic
    ending the program; [contents] is what reading a file gives, [None] being an error (88-92) *)
Fixpoint file_verdicts (entries : list (dtype * string)) (cfg : config) (contents : string -> option string) (files : list string) : list verdict :=
  match files with
  | [] => []
  | f :: r =>
      let vs := match contents f with Some text => test_query_file entries cfg text | None => [Failed] end in
      if existsb (fun v => match v with Panicked => true | _ => false end) vs then vs else vs ++ file_verdicts entries cfg contents r
  end.
Definition test_query_directory (entries : list (dtype * string)) (cfg : config) (contents : string -> option string)
    (matches : string -> bool) (path : string) (r : root) : list verdict :=
  match list_files_with_regexp matches path r with
  | Ok files => file_verdicts entries cfg contents files
  | Err _ => [Failed]
  | Panic => [Panicked]
  end.
