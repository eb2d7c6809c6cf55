(** The lexer SQLiteLexer.g4.  Input texts are byte strings: the model is for ASCII outside quoted
    names, strings and comments.  (The runtime reads runes, so that a non-ASCII character elsewhere is
    one UNEXPECTED_CHAR token where the model has one per byte.) *)
From Verif Require Import GoBase ModelEbnf.

Definition dq : ascii := ascii_of_nat 34.
Definition is_upper_letter (c : ascii) : bool := (65 <=? nat_of_ascii c) && (nat_of_ascii c <=? 90).
Definition is_digit_b (c : ascii) : bool := (48 <=? nat_of_ascii c) && (nat_of_ascii c <=? 57).
(** SQLiteLexer.g4:233: the sets are case-insensitive (line 30) *)
Definition ident_start (c : ascii) : bool := is_upper_letter (upper_ascii c) || Ascii.eqb c "_".
Definition ident_char (c : ascii) : bool := ident_start c || is_digit_b c.
(** SQLiteLexer.g4:256 *)
Definition is_hex (c : ascii) : bool :=
  is_digit_b c || ((65 <=? nat_of_ascii (upper_ascii c)) && (nat_of_ascii (upper_ascii c) <=? 70)).

(** the length of the longest prefix of bytes that satisfy p *)
Fixpoint span (p : ascii -> bool) (s : string) : nat :=
  match s with String c r => if p c then S (span p r) else 0 | EmptyString => 0 end.

(** The rest of a text quoted by q after its opening quote: any byte but q, or q twice, up to a
    closing q.  The longest match, or None. *)
Fixpoint close_quote (q : ascii) (s : string) : option nat :=
  match s with
  | EmptyString => None
  | String c r =>
      if Ascii.eqb c q then
        match r with
        | String d r' =>
            if Ascii.eqb d q then
              match close_quote q r' with Some n => Some (S (S n)) | None => Some 1 end
            else Some 1
        | EmptyString => Some 1
        end
      else match close_quote q r with Some n => Some (S n) | None => None end
  end.
(** Matchers: the length of the longest match at the start of the text, 0 for none. *)
Definition quoted (q : ascii) (s : string) : nat :=
  match s with
  | String c r => if Ascii.eqb c q then match close_quote q r with Some n => S n | None => 0 end else 0
  | EmptyString => 0
  end.
Definition bracketed (s : string) : nat :=
  match s with
  | String "[" r => let n := span (fun c => negb (Ascii.eqb c "]")) r in
                    if n <? String.length r then S (S n) else 0
  | _ => 0
  end.
Definition word (s : string) : nat :=
  match s with String c r => if ident_start c then S (span ident_char r) else 0 | EmptyString => 0 end.
(** SQLiteLexer.g4:229-234 *)
Definition m_identifier (s : string) : nat :=
  Nat.max (quoted dq s) (Nat.max (quoted "`" s) (Nat.max (bracketed s) (word s))).
(** SQLiteLexer.g4:236: the exponent, the number before it, a hexadecimal number *)
Definition m_exponent (s : string) : nat :=
  match s with
  | String e r =>
      if Ascii.eqb (upper_ascii e) "E" then
        match r with
        | String c r' =>
            if Ascii.eqb c "+" || Ascii.eqb c "-"
            then match span is_digit_b r' with 0 => 0 | n => S (S n) end
            else match span is_digit_b r with 0 => 0 | n => S n end
        | EmptyString => 0
        end
      else 0
  | EmptyString => 0
  end.
Definition m_mantissa (s : string) : nat :=
  match span is_digit_b s with
  | 0 => match s with
         | String "." r => match span is_digit_b r with 0 => 0 | n => S n end
         | _ => 0
         end
  | n => match sdrop n s with
         | String "." r => n + S (span is_digit_b r)
         | _ => n
         end
  end.
Definition m_hex (s : string) : nat :=
  match s with
  | String "0" (String x r) => if Ascii.eqb (upper_ascii x) "X" then match span is_hex r with 0 => 0 | n => S (S n) end else 0
  | _ => 0
  end.
Definition m_numeric (s : string) : nat :=
  Nat.max (match m_mantissa s with 0 => 0 | n => n + m_exponent (sdrop n s) end) (m_hex s).
Definition after (p : ascii -> bool) (m : string -> nat) (s : string) : nat :=
  match s with String c r => if p c then match m r with 0 => 0 | n => S n end else 0 | EmptyString => 0 end.
(** SQLiteLexer.g4:238-244 *)
Definition m_user_variable (s : string) : nat := after (Ascii.eqb "@") m_identifier s.
Definition m_system_variable (s : string) : nat := after (Ascii.eqb "@") m_user_variable s.
Definition m_bind (s : string) : nat :=
  Nat.max (match s with
           | String c r => if Ascii.eqb c "?" || Ascii.eqb c "$" then S (span is_digit_b r) else 0
           | EmptyString => 0
           end)
          (after (fun c => Ascii.eqb c ":" || Ascii.eqb c "@" || Ascii.eqb c "$") m_identifier s).
Definition m_string (s : string) : nat := quoted "'" s.
(** SQLiteLexer.g4:246 *)
Definition m_blob (s : string) : nat := after (fun c => Ascii.eqb (upper_ascii c) "X") m_string s.
(** SQLiteLexer.g4:248-252 *)
Definition is_eol (c : ascii) : bool := Ascii.eqb c (ascii_of_nat 10) || Ascii.eqb c (ascii_of_nat 13).
Definition m_line_comment (s : string) : nat :=
  match s with
  | String "-" (String "-" r) =>
      let n := span (fun c => negb (is_eol c)) r in
      match sdrop n r with
      | EmptyString => S (S n)
      | String c r' =>
          if Ascii.eqb c (ascii_of_nat 10) then 3 + n
          else match r' with
               | String d _ => if Ascii.eqb d (ascii_of_nat 10) then 4 + n else 0
               | EmptyString => 0
               end
      end
  | _ => 0
  end.
Fixpoint to_comment_end (s : string) : option nat :=
  match s with
  | EmptyString => None
  | String c r =>
      if has_prefix "*/" s then Some 2
      else match to_comment_end r with Some n => Some (S n) | None => None end
  end.
Definition m_comment (s : string) : nat :=
  match s with
  | String "/" (String "*" r) => match to_comment_end r with Some n => S (S n) | None => 0 end
  | _ => 0
  end.
Definition m_space (s : string) : nat :=
  match s with
  | String c _ => if existsb (Nat.eqb (nat_of_ascii c)) [32; 11; 9; 13; 10] then 1 else 0
  | EmptyString => 0
  end.
(** SQLiteLexer.g4:254 *)
Definition m_any (s : string) : nat := match s with String _ _ => 1 | EmptyString => 0 end.
(** a literal in quotes, case-insensitive *)
Definition m_literal (l s : string) : nat := if has_prefix l (to_upper s) then String.length l else 0.

(** SQLiteLexer.g4:32-227 *)
Definition literal_tokens : list (string * string) :=
  [("SCOL", ";"); ("DOT", "."); ("OPEN_PAR", "("); ("CLOSE_PAR", ")"); ("COMMA", ","); ("ASSIGN", "=");
   ("STAR", "*"); ("PLUS", "+"); ("MINUS", "-"); ("TILDE", "~"); ("PIPE2", "||"); ("DIV", "/");
   ("MOD", "%"); ("LT2", "<<"); ("GT2", ">>"); ("AMP", "&"); ("PIPE", "|"); ("LT", "<"); ("LT_EQ", "<=");
   ("GT", ">"); ("GT_EQ", ">="); ("EQ", "=="); ("NOT_EQ1", "!="); ("NOT_EQ2", "<>"); ("AT", "@");
   ("ABORT_", "ABORT"); ("ACTION_", "ACTION"); ("ADD_", "ADD"); ("AFTER_", "AFTER"); ("ALL_", "ALL");
   ("ALTER_", "ALTER"); ("ANALYZE_", "ANALYZE"); ("AND_", "AND"); ("AS_", "AS"); ("ASC_", "ASC");
   ("ATTACH_", "ATTACH"); ("AUTOINCREMENT_", "AUTOINCREMENT"); ("BINARY_", "BINARY");
   ("BEFORE_", "BEFORE"); ("BEGIN_", "BEGIN"); ("BETWEEN_", "BETWEEN"); ("BY_", "BY");
   ("CASCADE_", "CASCADE"); ("CASE_", "CASE"); ("CAST_", "CAST"); ("CHECK_", "CHECK");
   ("COLLATE_", "COLLATE"); ("COLUMN_", "COLUMN"); ("COMMIT_", "COMMIT"); ("CONFLICT_", "CONFLICT");
   ("CONSTRAINT_", "CONSTRAINT"); ("COPY_", "COPY"); ("CREATE_", "CREATE"); ("CROSS_", "CROSS");
   ("CSV_", "CSV"); ("CURRENT_DATE_", "CURRENT_DATE"); ("CURRENT_TIME_", "CURRENT_TIME");
   ("CURRENT_TIMESTAMP_", "CURRENT_TIMESTAMP"); ("DATABASE_", "DATABASE"); ("DEFAULT_", "DEFAULT");
   ("DEFERRABLE_", "DEFERRABLE"); ("DEFERRED_", "DEFERRED"); ("DELETE_", "DELETE"); ("DESC_", "DESC");
   ("DETACH_", "DETACH"); ("DISTINCT_", "DISTINCT"); ("DROP_", "DROP"); ("EACH_", "EACH");
   ("ELSE_", "ELSE"); ("END_", "END"); ("ESCAPE_", "ESCAPE"); ("EXCEPT_", "EXCEPT");
   ("EXCLUSIVE_", "EXCLUSIVE"); ("EXISTS_", "EXISTS"); ("EXPLAIN_", "EXPLAIN"); ("FAIL_", "FAIL");
   ("FOR_", "FOR"); ("FOREIGN_", "FOREIGN"); ("FORMAT_", "FORMAT"); ("FROM_", "FROM"); ("FULL_", "FULL");
   ("GLOB_", "GLOB"); ("GROUP_", "GROUP"); ("HAVING_", "HAVING"); ("IF_", "IF"); ("IGNORE_", "IGNORE");
   ("IMMEDIATE_", "IMMEDIATE"); ("IN_", "IN"); ("INDEX_", "INDEX"); ("INDEXED_", "INDEXED");
   ("INITIALLY_", "INITIALLY"); ("INNER_", "INNER"); ("INSERT_", "INSERT"); ("INSTEAD_", "INSTEAD");
   ("INTERSECT_", "INTERSECT"); ("INTO_", "INTO"); ("IS_", "IS"); ("ISNULL_", "ISNULL"); ("JOIN_", "JOIN");
   ("KEY_", "KEY"); ("LEFT_", "LEFT"); ("LIKE_", "LIKE"); ("LIMIT_", "LIMIT"); ("MATCH_", "MATCH");
   ("NATURAL_", "NATURAL"); ("NO_", "NO"); ("NOT_", "NOT"); ("NOTNULL_", "NOTNULL"); ("NULL_", "NULL");
   ("OF_", "OF"); ("OFFSET_", "OFFSET"); ("ON_", "ON"); ("OR_", "OR"); ("ORDER_", "ORDER");
   ("OUTER_", "OUTER"); ("PLAN_", "PLAN"); ("PRAGMA_", "PRAGMA"); ("PRIMARY_", "PRIMARY");
   ("QUERY_", "QUERY"); ("RAISE_", "RAISE"); ("RECURSIVE_", "RECURSIVE"); ("REFERENCES_", "REFERENCES");
   ("REGEXP_", "REGEXP"); ("REINDEX_", "REINDEX"); ("RELEASE_", "RELEASE"); ("RENAME_", "RENAME");
   ("REPLACE_", "REPLACE"); ("RESTRICT_", "RESTRICT"); ("RETURNING_", "RETURNING"); ("RIGHT_", "RIGHT");
   ("ROLLBACK_", "ROLLBACK"); ("ROW_", "ROW"); ("ROWS_", "ROWS"); ("SAVEPOINT_", "SAVEPOINT");
   ("SELECT_", "SELECT"); ("SET_", "SET"); ("TABLE_", "TABLE"); ("TEMP_", "TEMP");
   ("TEMPORARY_", "TEMPORARY"); ("TEXT_", "TEXT"); ("THEN_", "THEN"); ("TO_", "TO");
   ("TRANSACTION_", "TRANSACTION"); ("TRIGGER_", "TRIGGER"); ("TRUNCATE_", "TRUNCATE");
   ("UNION_", "UNION"); ("UNIQUE_", "UNIQUE"); ("UPDATE_", "UPDATE"); ("USING_", "USING");
   ("VACUUM_", "VACUUM"); ("VALUES_", "VALUES"); ("VIEW_", "VIEW"); ("VIRTUAL_", "VIRTUAL");
   ("WHEN_", "WHEN"); ("WHERE_", "WHERE"); ("WITH_", "WITH"); ("WITHOUT_", "WITHOUT");
   ("FIRST_VALUE_", "FIRST_VALUE"); ("OVER_", "OVER"); ("PARTITION_", "PARTITION"); ("RANGE_", "RANGE");
   ("PRECEDING_", "PRECEDING"); ("UNBOUNDED_", "UNBOUNDED"); ("CURRENT_", "CURRENT");
   ("FOLLOWING_", "FOLLOWING"); ("CUME_DIST_", "CUME_DIST"); ("DENSE_RANK_", "DENSE_RANK");
   ("LAG_", "LAG"); ("LAST_VALUE_", "LAST_VALUE"); ("LEAD_", "LEAD"); ("NTH_VALUE_", "NTH_VALUE");
   ("NTILE_", "NTILE"); ("PERCENT_RANK_", "PERCENT_RANK"); ("RANK_", "RANK");
   ("ROW_NUMBER_", "ROW_NUMBER"); ("GENERATED_", "GENERATED"); ("ALWAYS_", "ALWAYS");
   ("STORED_", "STORED"); ("TRUE_", "TRUE"); ("FALSE_", "FALSE"); ("WINDOW_", "WINDOW");
   ("NULLS_", "NULLS"); ("FIRST_", "FIRST"); ("LAST_", "LAST"); ("FILTER_", "FILTER");
   ("GROUPS_", "GROUPS"); ("EXCLUDE_", "EXCLUDE"); ("TIES_", "TIES"); ("OTHERS_", "OTHERS"); ("DO_", "DO");
   ("NOTHING_", "NOTHING"); ("USE_", "USE"); ("ENGINE_", "ENGINE")].
(** The rules in the order of the file. *)
Definition lex_rules : list (string * (string -> nat)) :=
  map (fun p => (fst p, m_literal (snd p))) literal_tokens ++
  [("IDENTIFIER", m_identifier); ("NUMERIC_LITERAL", m_numeric); ("SYSTEM_VARIABLE", m_system_variable);
   ("USER_VARIABLE", m_user_variable); ("BIND_PARAMETER", m_bind); ("STRING_LITERAL", m_string);
   ("BLOB_LITERAL", m_blob); ("SINGLE_LINE_COMMENT", m_line_comment); ("MULTILINE_COMMENT", m_comment);
   ("SPACES", m_space); ("UNEXPECTED_CHAR", m_any)].
(** channel(HIDDEN), SQLiteLexer.g4:248-252 *)
Definition hidden (kind : string) : bool :=
  existsb (String.eqb kind) ["SINGLE_LINE_COMMENT"; "MULTILINE_COMMENT"; "SPACES"].

(** The longest match wins, the first rule among those of equal length (the runtime's lexer). *)
Fixpoint longest (rules : list (string * (string -> nat))) (s : string) (best : string * nat) : string * nat :=
  match rules with
  | [] => best
  | (kind, m) :: r => longest r s (if snd best <? m s then (kind, m s) else best)
  end.
Definition next_token (s : string) : string * nat := longest lex_rules s (""%string, 0).
(** All the tokens, the hidden ones included.  [n] bounds their number. *)
Fixpoint lex_from (n : nat) (s : string) : list token :=
  match n, s with
  | _, EmptyString => []
  | O, _ => []
  | S n', _ => let (kind, l) := next_token s in mkTok kind (stake l s) :: lex_from n' (sdrop l s)
  end.
Definition lex (s : string) : list token := lex_from (String.length s) s.
(** What the parser sees (CommonTokenStream, parser_antlr.go:77): the visible tokens and the end. *)
Definition eof : token := mkTok "EOF" "<EOF>".
Definition visible (ts : list token) : list token := filter (fun t => negb (hidden (tk t))) ts.
Definition token_stream (s : string) : list token := visible (lex s) ++ [eof].
