(** Model of sqltest: test_helper.go, query_file_helper.go, config.go. *)
From Verif Require Import GoBase ModelNum ModelQuery ModelEbnf ModelGrammar ModelLex ModelVisitor.

Definition newline : ascii := ascii_of_nat 10.
Definition tabulator : ascii := ascii_of_nat 9.

(** ** query_file_helper.go *)

(** query_file_helper.go:29: the separator, as a byte and as a text *)
Definition separator : ascii := ";".
Definition separator_text : string := ";".
(** query_file_helper.go:48-57 *)
Definition trim_query (q : string) : string := trim " " (trim (String newline "") (trim separator_text q)).

(** what \s matches in package regexp: tab, newline, form feed, carriage return, blank *)
Definition is_space (c : ascii) : bool := existsb (Nat.eqb (nat_of_ascii c)) [9; 10; 12; 13; 32].
(** query_file_helper.go:65 and 67-70: every run of two or more of these becomes one blank.  The run so far: none, one byte, more. *)
Inductive run_so_far := NoRun | OneByte (c : ascii) | Longer.
Fixpoint squeeze (r : run_so_far) (s : string) : string :=
  match s with
  | EmptyString => match r with NoRun => "" | OneByte d => String d "" | Longer => " " end
  | String c s' =>
      if is_space c then squeeze (match r with NoRun => OneByte c | _ => Longer end) s'
      else match r with
           | NoRun => String c (squeeze NoRun s')
           | OneByte d => String d (String c (squeeze NoRun s'))
           | Longer => String " " (String c (squeeze NoRun s'))
           end
  end.
(** strings.ReplaceAll of one byte by another *)
Definition replace_byte (a b : ascii) (s : string) : string := smap (fun c => if Ascii.eqb c a then b else c) s.
(** strings.ReplaceAll of two different bytes by one *)
Fixpoint replace_pair (a b c : ascii) (s : string) : string :=
  match s with
  | String x ((String y s') as t) => if Ascii.eqb x a && Ascii.eqb y b then String c (replace_pair a b c s') else String x (replace_pair a b c t)
  | _ => s
  end.
(** query_file_helper.go:59-84 *)
Definition formalize_query (q : string) : string :=
  replace_pair " " ")" ")" (replace_pair "(" " " "(" (replace_byte tabulator " " (replace_byte newline " " (squeeze NoRun (trim_query q))))).

(** ** config.go *)

(** config.go:21-30 *)
Inductive validation := DefaultValidation | StrictValidation | ParseOnlyValidation.
(** config.go:33-36 *)
Record config := mkConfig { cf_skip_errors : bool; cf_mode : validation }.
(** config.go:44-55 *)
Inductive config_option := WithSkipErrors (b : bool) | WithMode (m : validation).
Definition apply_config (c : config) (o : config_option) : config :=
  match o with WithSkipErrors b => mkConfig b (cf_mode c) | WithMode m => mkConfig (cf_skip_errors c) m end.
(** config.go:58-67; NewConfig (39-41) is the same *)
Definition default_config (opts : list config_option) : config := fold_left apply_config opts (mkConfig false DefaultValidation).
(** the options of TestQueryString: a configuration, an option, anything else.  Simplified: an option changes the
    configuration that was given before it in place, which is not modelled. *)
Inductive test_option := GivenConfig (c : config) | GivenOption (o : config_option) | GivenOther.
(** test_helper.go:26-34 *)
Definition test_config (opts : list test_option) : config :=
  fold_left (fun c o => match o with GivenConfig c' => c' | GivenOption o => apply_config c o | GivenOther => c end) opts (default_config []).

(** ** test_helper.go *)

(** what a test does: it passes, reports an error, is skipped, panics *)
Inductive verdict := Passed | Failed | Skipped | Panicked.

(** Query.String of the queries that are reported: any of them may panic *)
Fixpoint all_printed (l : list stmt) : bool :=
  match l with [] => true | s :: r => match stmt_string s with Ok _ => all_printed r | _ => false end end.

Section Types.
  Variable entries : list (dtype * string).

  (** test_helper.go:25-109 with the configuration; t.Logf and the texts of the errors are left out *)
  Definition test_query_string (cfg : config) (q : string) : verdict :=
    match parse entries q with
    | Panic => Panicked
    | Err _ => Failed
    | Ok parsed =>
        match cf_mode cfg with
        | ParseOnlyValidation => match parsed with s :: _ => match stmt_string s with Ok _ => Passed | _ => Panicked end | [] => Panicked end
        | mode =>
            match parsed with
            | [s] =>
                match stmt_string s with
                | Ok text =>
                    let p := formalize_query text in
                    if equal_fold (formalize_query q) p then Passed
                    else match mode with
                         | StrictValidation => if cf_skip_errors cfg then Skipped else Failed
                         | _ =>
                             match parse entries p with
                             | Panic => Panicked
                             | Err _ => Failed
                             | Ok [s'] =>
                                 match stmt_string s' with
                                 | Ok text' => if equal_fold p (formalize_query text') then Passed else if cf_skip_errors cfg then Skipped else Failed
                                 | _ => Panicked
                                 end
                             | Ok l => if all_printed l then Failed else Panicked
                             end
                         end
                | _ => Panicked
                end
            | l => if all_printed l then Failed else Panicked
            end
        end
    end.

  (** query_file_helper.go:94-99: the queries of a file that are tested *)
  Definition file_queries (text : string) : list string :=
    filter (fun q => negb (String.eqb q "" || has_prefix "#" q)) (map trim_query (split_byte separator text)).
  (** query_file_helper.go:87-104: the verdicts of the subtests in order; a panic ends the program, so that what follows it is
      not run.  Reading the file is left out. *)
  Fixpoint verdicts (cfg : config) (qs : list string) : list verdict :=
    match qs with
    | [] => []
    | q :: r => match test_query_string cfg q with Panicked => [Panicked] | v => v :: verdicts cfg r end
    end.
  Definition test_query_file (cfg : config) (text : string) : list verdict := verdicts cfg (file_queries text).
  (** a test is successful if no subtest failed or panicked *)
  Definition successful (vs : list verdict) : bool := forallb (fun v => match v with Passed | Skipped => true | _ => false end) vs.
End Types.
