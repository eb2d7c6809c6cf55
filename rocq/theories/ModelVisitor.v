(** parser_antlr.go and parser_antlr_visitor.go: from a text to statements.  The visitor works on the
    parse trees of ModelEbnf.v.  A method call on a nil context is [Panic]. *)
From Verif Require Import GoBase ModelUtil ModelNum ModelFn ModelQuery ModelEbnf ModelGrammar ModelLex.

(** ** Contexts *)

(** a context that is used without a test for nil *)
Definition need (o : option tree) : result tree := match o with Some t => Ok t | None => Panic end.
(** ctx.X().GetText() *)
Definition text_of (o : option tree) : result string := rbind (need o) (fun t => Ok (text t)).
Definition name_of (o : option tree) : result string := rbind (text_of o) (fun s => Ok (unescape_name_string s)).
Definition present (o : option tree) : bool := match o with Some _ => true | None => false end.
Fixpoint collect {A B} (f : A -> result B) (l : list A) : result (list B) :=
  match l with
  | [] => Ok []
  | x :: r => rbind (f x) (fun y => rbind (collect f r) (fun ys => Ok (y :: ys)))
  end.
Notation "'let*' x := r 'in' s" := (rbind r (fun x => s)) (at level 200, x name, r at level 100, s at level 200).

(** ** Literals and conditions *)

(** parser_antlr_visitor.go:647-656; without a context the literal is nil *)
Definition v_literal (o : option tree) : option literal :=
  match o with
  | None => None
  | Some t =>
      match sub "string_literal" t with
      | Some s => Some (mkLit (VStr (unescape_string (text s))) StringLiteral)
      | None => Some (mkLit (VStr (text t)) UnknownLiteral)
      end
  end.
(** 658-663 *)
Definition v_bind (t : tree) : literal := mkLit (VBind (text t)) UnknownLiteral.
(** 666-688; None is nil *)
Definition v_operator (t : tree) : option cmp_op :=
  if has_tok "ASSIGN" t then Some OpEQ
  else if has_tok "NOT_EQ1" t || has_tok "NOT_EQ2" t then Some OpNEQ
  else if has_tok "LT" t then Some OpLT
  else if has_tok "GT" t then Some OpGT
  else if has_tok "LT_EQ" t then Some OpLE
  else if has_tok "GT_EQ" t then Some OpGE
  else None.
Definition v_cmp (t : tree) : result (option expr) :=
  let* c := text_of (sub "column_name" t) in
  Ok (match v_operator t with
      | Some op => Some (ECmp op (new_column c) (v_literal (sub "literal_value" t)))
      | None => None
      end).
(** 690-699: a nil operand does not come from the grammar; the model takes it for a panic *)
Definition v_pair (mk : expr -> expr -> expr) (t : tree) : result (option expr) :=
  let* l := need (lab "left" t) in
  let* a := v_cmp l in
  let* r := need (lab "right" t) in
  let* b := v_cmp r in
  match a, b with Some a, Some b => Ok (Some (mk a b)) | _, _ => Panic end.
(** 665-705 *)
Definition v_expr (t : tree) : result (option expr) :=
  match sub "and_expr" t with
  | Some a => v_pair EAnd a
  | None =>
      match sub "or_expr" t with
      | Some o => v_pair EOr o
      | None => match sub "comparison_expr" t with Some c => v_cmp c | None => Ok None end
      end
  end.
(** 485-488, 514-516 with 522-525, 593-596 *)
Definition v_where (o : option tree) : result condition :=
  match o with Some w => v_expr w | None => Ok None end.

(** ** Columns and schemas *)

Section Types.
  (** the order in which NewDataTypeFromString reads its map *)
  Context (entries : list (dtype * string)).

  (** 355-412; None is the pair of nil and false *)
  Definition v_column (t : tree) : result (option column) :=
    let* name := name_of (sub "column_name" t) in
    if existsb (String.eqb name) ["PRIMARY"; "KEY"; "UNIQUE"; "INDEX"; "CONSTRAINT"] then Ok None
    else
      match sub "type_name" t with
      | None => Ok None
      | Some ty =>
          let defs := map text (subs "name" ty) ++
                      (if has_tok "OPEN_PAR" ty && has_tok "CLOSE_PAR" ty
                       then ["("; join_with_comma (map text (subs "signed_number" ty)); ")"] else []) in
          match defs with
          | [] => Ok None
          | _ =>
              let d := match data_def_from_strings entries defs with Ok d => d | _ => unknown_data_def end in
              Ok (Some (new_def_column name d))
          end
      end.

  (** 414-421 *)
  Definition v_indexed_column (t : tree) : result column :=
    let* name := name_of (sub "column_name" t) in
    Ok (new_def_column name (match data_def_from entries "" (-1) with Ok d => d | _ => unknown_data_def end)).

  (** 248-260 *)
  Definition v_index_defs (t : tree) : result (list string) :=
    let* name := name_of (sub "column_name" t) in
    Ok (name :: match sub "type_name" t with Some ty => map text (subs "name" ty) | None => [] end).
  (** 268-278: the words after PRIMARY *)
  Fixpoint v_primary_from (cols : list column) (ws : list string) : option column :=
    match ws with
    | k :: ((c :: _) as r) =>
        if String.eqb k "KEY" then
          match lookup_column cols (unescape_name_string c) with
          | Ok col => Some col
          | _ => v_primary_from cols r
          end
        else v_primary_from cols r
    | _ => None
    end.
  (** 262-291: the words of the definition from the left, all but the last one *)
  Fixpoint v_index_column (cols : list column) (ws : list string) : option (string * column) :=
    match ws with
    | v :: ((_ :: _) as r) =>
        let hit :=
          if String.eqb v "PRIMARY" then
            match v_primary_from cols r with Some c => Some (""%string, c) | None => None end
          else if String.eqb v "KEY" || String.eqb v "INDEX" then
            match r with
            | i :: c :: _ =>
                match lookup_column cols (unescape_name_string c) with
                | Ok col => Some (unescape_name_string i, col)
                | _ => None
                end
            | _ => None
            end
          else None in
        match hit with Some x => Some x | None => v_index_column cols r end
    | _ => None
    end.

  (** 298-324: the columns and indexes so far, one more definition *)
  Definition v_column_def (acc : list column * list index) (t : tree) : result (list column * list index) :=
    let (cols, idxs) := acc in
    let* c := v_column t in
    let (cols, idxs) :=
      match c with
      | Some col =>
          (cols ++ [col],
           idxs ++ map (fun _ => primary_index [col])
                     (filter (fun k => present (sub "primary_key_constraint" k)) (subs "column_constraint" t)))
      | None => (cols, idxs)
      end in
    let* word := text_of (sub "column_name" t) in
    if String.eqb word "PRIMARY" then
      let* ws := v_index_defs t in
      Ok (cols, match v_index_column cols ws with
                | Some (_, col) => idxs ++ [primary_index [col]]
                | None => idxs
                end)
    else if String.eqb word "KEY" || String.eqb word "INDEX" then
      let* ws := v_index_defs t in
      Ok (cols, match v_index_column cols ws with
                | Some (i, col) => idxs ++ [secondary_index i [col]]
                | None => idxs
                end)
    else Ok (cols, idxs).
  Fixpoint v_column_defs (acc : list column * list index) (l : list tree) : result (list column * list index) :=
    match l with [] => Ok acc | t :: r => let* acc' := v_column_def acc t in v_column_defs acc' r end.
  (** 326-335 *)
  Definition v_table_constraint (t : tree) : result (list index) :=
    match sub "primary_key_def" t with
    | Some p => let* cs := collect v_indexed_column (subs "indexed_column" p) in Ok [primary_index cs]
    | None => Ok []
    end.
  (** 247-338 *)
  Definition v_table_schema (t : tree) : result schema :=
    let* name := name_of (sub "table_name" t) in
    let* ci := v_column_defs ([], []) (subs "column_def" t) in
    let* more := collect v_table_constraint (subs "table_constraint" t) in
    Ok (new_schema name (fst ci) (snd ci ++ concat more)).
  (** 340-353 *)
  Definition v_index_schema (t : tree) : result schema :=
    let* i := name_of (sub "index_name" t) in
    let* name := name_of (sub "table_name" t) in
    let* cs := collect (fun c => let* n := name_of (sub "column_name" c) in Ok (new_column n))
                       (subs "indexed_column" t) in
    Ok (new_schema name [] [secondary_index i cs]).
  (** 227-245 *)
  Definition v_add_index (t : tree) : result index :=
    let* head :=
      match sub "column_constraint" t with
      | None => Ok (UnknownIndex, ""%string)
      | Some k =>
          let ty := if present (sub "primary_key_constraint" k) then PrimaryIndex else UnknownIndex in
          match sub "index_constraint" k with
          | None => Ok (ty, ""%string)
          | Some i => let* n := name_of (sub "index_name" i) in Ok (SecondaryIndex, n)
          end
      end in
    Ok (mkIdx (snd head) (fst head)
              (map (fun c => new_column (unescape_name_string (text c))) (subs "column_name" t))).

  (** ** Statements *)

  (** 194-225 *)
  Definition v_alter_table (t : tree) : result stmt :=
    let schema := match sub "schema_name" t with Some s => unescape_name_string (text s) | None => ""%string end in
    let* rename_to :=
      match sub "rename_table_to" t with
      | Some r => let* n := name_of (sub "table_name" r) in Ok (Some (new_table n))
      | None => Ok None
      end in
    let* rename_column :=
      match sub "rename_table_colum" t with
      | Some r => let* f := text_of (lab "old_column_name" r) in
                  let* n := text_of (lab "new_column_name" r) in
                  Ok (Some (new_column f, new_column n))
      | None => Ok None
      end in
    let* add_column :=
      match sub "add_table_column" t with
      | Some r => let* d := need (sub "column_def" r) in v_column d
      | None => Ok None
      end in
    let* add_index :=
      match sub "add_table_index" t with
      | Some r => let* i := v_add_index r in Ok (Some i)
      | None => Ok None
      end in
    let drop_column :=
      match sub "drop_table_column" t with Some r => Some (new_column (text r)) | None => None end in
    let* name := text_of (lab "target_table_name" t) in
    Ok (SAlterTable (mkAlter (mkTbl schema name) rename_to rename_column add_column add_index drop_column None)).

  (** 434-454: the columns so far and the names left *)
  Fixpoint v_row (names : list string) (es : list tree) : result (list column) :=
    match es with
    | [] => Ok []
    | e :: r =>
        match sub "comparison_expr" e with
        | Some c =>
            let* n := text_of (sub "column_name" c) in
            let* rest := v_row names r in
            Ok (mkCol n None (v_literal (sub "literal_value" c)) None [] :: rest)
        | None =>
            let lit := match sub "literal_value" e with
                       | Some l => v_literal (Some l)
                       | None => match sub "bind_param" e with Some b => Some (v_bind b) | None => None end
                       end in
            match lit, names with
            | Some l, n :: ns => let* rest := v_row ns r in Ok (new_value_column n l :: rest)
            | _, _ => v_row names r
            end
        end
    end.
  (** 423-458 *)
  Definition v_insert (t : tree) : result stmt :=
    let* name := name_of (sub "table_name" t) in
    let names := map text (subs "column_name" t) in
    let* vc := need (sub "values_clause" t) in
    let* rows := collect (fun row => v_row names (subs "expr" row)) (subs "value_row" vc) in
    Ok (SInsert (new_table name) rows).

  (** 463-484 *)
  Definition v_set (t : tree) : result column :=
    let* name := text_of (sub "column_name" t) in
    let* e := need (sub "expr" t) in
    match sub "literal_value" e with
    | Some l => Ok (mkCol name None (v_literal (Some l)) None [])
    | None =>
        match sub "bind_param" e with
        | Some b => Ok (new_value_column name (v_bind b))
        | None =>
            match sub "arithmetic_expr" e with
            | Some a =>
                let* op := text_of (lab "ope" a) in
                let* x := text_of (sub "column_name" a) in
                let* y := text_of (sub "expr" a) in
                Ok (match new_arith_operator op with
                    | Ok f => new_function_column name f [x; y]
                    | _ => new_column name
                    end)
            | None => Ok (new_column name)
            end
        end
    end.
  (** 460-490 *)
  Definition v_update (t : tree) : result stmt :=
    let* name := text_of (lab "table" t) in
    let* cs := collect v_set (subs "update_column_set" t) in
    let* w := v_where (lab "whereExpr" t) in
    Ok (SUpdate (new_table name) cs w).

  (** 570-589 *)
  Definition v_selector (t : tree) : result selector :=
    let plain := Ok (SelCol (new_column (text t))) in
    match sub "expr" t with
    | None => plain
    | Some e =>
        match sub "function" e with
        | None => plain
        | Some f =>
            let args := if has_tok "STAR" f then ["*"] else map text (subs "expr" f) in
            let* n := text_of (sub "function_name" f) in
            Ok (SelFn (new_func n args))
        end
    end.
  (** 505-513 *)
  Definition v_from (t : tree) : list table :=
    match sub "from_table" t with
    | Some f => [mkTbl (match sub "schema_name" f with Some s => text s | None => ""%string end) (text f)]
    | None => []
    end.
  (** 531-541 *)
  Definition v_order (t : tree) : result (list order) :=
    let* c := text_of (sub "expr" t) in
    Ok (match match sub "asc_desc" t with Some d => new_order_type (text d) | None => OrderNone end with
        | OrderNone => []
        | ty => [mkOrder c ty]
        end).
  (** 548-565 *)
  Definition v_limit (o : option tree) : limit :=
    match o with
    | None => mkLimit 0%N 0%N
    | Some t =>
        let num e := match to_uint (text e) with Some n => n | None => 0%N end in
        match subs "expr" t with
        | [] => mkLimit 0%N 0%N
        | [l] => mkLimit 0%N (num l)
        | l :: o :: _ => mkLimit (num o) (num l)
        end
    end.
  (** 492-568 *)
  Definition v_select (t : tree) : result stmt :=
    let q := lab "parentQuery" t in
    let* sels := match q with Some q => collect v_selector (subs "result_column" q) | None => Ok [] end in
    let tbls := match q with Some q => concat (map v_from (subs "from" q)) | None => [] end in
    let* w := match q with Some q => v_where (lab "whereExpr" q) | None => Ok None end in
    let group := match q with
                 | Some q => match labelled "groupByExpr" q with g :: _ => text g | [] => ""%string end
                 | None => ""%string
                 end in
    let* orders :=
      match sub "order_by_stmt" t with
      | Some o => let* l := collect v_order (subs "ordering_term" o) in Ok (concat l)
      | None => Ok []
      end in
    Ok (SSelect (mkSelect tbls sels w orders (v_limit (sub "limit_stmt" t)) group)).

  (** 591-598 *)
  Definition v_delete (t : tree) : result stmt :=
    let* name := text_of (lab "table" t) in
    let* w := v_where (lab "whereExpr" t) in
    Ok (SDelete (new_table name) w).
  (** 600-618 *)
  Definition v_copy (t : tree) : result stmt :=
    let cols := match sub "copy_column_list" t with
                | Some l => map (fun c => new_column (unescape_string (text c))) (subs "column_name" l)
                | None => []
                end in
    let* fmt := match sub "copy_format" t with
                | Some f => let* s := text_of (lab "format_type" f) in Ok (set_copy_format CopyText s)
                | None => Ok CopyText
                end in
    let* name := text_of (lab "table" t) in
    let* src := text_of (sub "source_name" t) in
    Ok (SCopy (new_table (unescape_string name)) cols (unescape_string src) fmt).

  (** 55-123 (and 125-192, 620-645, 707-709): the statement, or nil *)
  Definition v_statement (t : tree) : result (option stmt) :=
    let try (name : string) (f : tree -> result stmt) (other : result (option stmt)) :=
      match sub name t with Some s => let* x := f s in Ok (Some x) | None => other end in
    try "create_database_stmt" (fun s =>
      let* n := text_of (sub "database_name" s) in Ok (SCreateDatabase n (present (sub "if_not_exists" s)))) (
    try "create_table_stmt" (fun s =>
      let* sc := v_table_schema s in Ok (SCreateTable sc (present (sub "if_not_exists" s)))) (
    try "create_index_stmt" (fun s =>
      let* sc := v_index_schema s in Ok (SCreateIndex sc (present (sub "if_not_exists" s)))) (
    try "drop_database_stmt" (fun s =>
      let* n := text_of (sub "database_name" s) in Ok (SDropDatabase n (present (sub "if_exists" s)))) (
    try "drop_table_stmt" (fun s =>
      Ok (SDropTable (map (fun n => new_table (unescape_name_string (text n))) (subs "table_name" s))
                     (present (sub "if_exists" s)))) (
    try "drop_index_stmt" (fun s =>
      let sn := match sub "schema_name" s with Some n => unescape_name_string (text n) | None => ""%string end in
      let* i := name_of (sub "index_name" s) in Ok (SDropIndex sn i (present (sub "if_exists" s)))) (
    try "alter_database_stmt" (fun s =>
      let* n := text_of (sub "database_name" s) in
      let* to := match sub "rename_database_to" s with
                 | Some r => text_of (lab "new_database_name" r)
                 | None => Ok ""%string
                 end in
      Ok (SAlterDatabase n to)) (
    try "alter_table_stmt" v_alter_table (
    try "insert_stmt" v_insert (
    try "update_stmt" v_update (
    try "select_stmt" v_select (
    try "delete_stmt" v_delete (
    try "commit_stmt" (fun _ => Ok SCommit) (
    try "begin_stmt" (fun _ => Ok SBegin) (
    try "rollback_stmt" (fun _ => Ok SRollback) (
    try "use_stmt" (fun s => let* n := text_of (sub "database_name" s) in Ok (SUse n)) (
    try "copy_stmt" v_copy (
    try "truncate_stmt" (fun s => Ok (STruncate (map (fun n => new_table (text n)) (subs "table_name" s)))) (
    try "vacuum_stmt" (fun s =>
      Ok (SVacuum (match sub "schema_name" s with Some n => Some (new_table (text n)) | None => None end))) (
    Ok None))))))))))))))))))).

  (** 37-53 *)
  Definition v_parse (t : tree) : result (list stmt) :=
    let* l := collect v_statement (concat (map (subs "sql_stmt") (subs "sql_stmt_list" t))) in
    Ok (concat (map (fun o => match o with Some s => [s] | None => [] end) l)).

  (** ** parser_antlr.go *)

  (** the tree of a token stream, or that it has a syntax error (parser_antlr.go:78-81) *)
  Definition at_end (cs : children) (r : list token) : outcome := match r with [] => Found cs | _ => NotFound end.
  Definition fuel (ts : list token) : nat := 64 * S (length ts).
  Definition parse_tree (ts : list token) : outcome := run rule (fuel ts) (Rule "parse" 0) ts at_end.

  (** parser_antlr.go:52-96 of a parser whose listener has seen no error so far ([clean]) or has.  The
      second component is the listener afterwards: nothing ever resets it (parser_antlr_error_listener.go:
      31-52).  Only the listener of the parser is replaced: lexer errors would just be printed, and the
      lexer has none, since every byte is a token. *)
  Definition parse_string (clean : bool) (q : string) : result (list stmt) * bool :=
    if String.eqb q "" || String.eqb q ";" then (Err ErrEmptyQuery, clean)
    else
      match parse_tree (token_stream q) with
      | Found [(_, t)] => if clean then (v_parse t, true) else (Err ErrParse, false)
      | _ => (Err ErrParse, false)
      end.
  (** a new parser (parser_antlr.go:37-49) *)
  Definition parse (q : string) : result (list stmt) := fst (parse_string true q).
End Types.
