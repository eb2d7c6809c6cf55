(** Specification of result schemas: what each option says. *)
From Verif Require Import GoBase ModelFn ModelQuery ModelAggregate.

(** [x] is what the last option that [pick] recognises gives, or the default *)
Definition last_given {O X} (pick : O -> option X) (opts : list O) (default x : X) : Prop :=
  (exists before o after, opts = before ++ o :: after /\ pick o = Some x /\ Forall (fun o => pick o = None) after)
  \/ (Forall (fun o => pick o = None) opts /\ x = default).

Section Options.
  Context {V : Type} (value_type : V -> result dtype).

  Definition a_database (o : sopt V) : option string := match o with SoDatabase n => Some n | _ => None end.
  (** a table's schema gives its name *)
  Definition a_table (o : sopt V) : option string :=
    match o with SoTable n => Some n | SoBase b => Some (t_name (s_table b)) | _ => None end.
  Definition a_base (o : sopt V) : option (option schema) := match o with SoBase b => Some (Some b) | _ => None end.

  (** the result column [c] has the name, the function, the type and the constraint of the table's column [tc] *)
  Definition shows (tc : column) (c : scol) : Prop :=
    sc_name c = c_name tc /\ sc_fn c = c_fn tc /\ (forall d, c_def tc = Some d -> sc_type c = d_type d /\ sc_const c = d_consts d).
  (** the first column of a table that has a name, whatever the case *)
  Definition first_named (b : schema) (name : string) (tc : column) : Prop :=
    exists before after, s_columns b = before ++ tc :: after /\ equal_fold (c_name tc) name = true
      /\ Forall (fun x => equal_fold (c_name x) name = false) before.
  (** the result column of a selector: the table's column, or a FLOAT headed by the text of the function *)
  Definition column_for (b : schema) (sel : selector) (c : scol) : Prop :=
    match sel_function sel with
    | None => exists tc, first_named b (sel_name sel) tc /\ shows tc c
    | Some f => In (f_type f) [MathFunction; AggregateFunction; CastFunction; ArithOperator]
                /\ sc_name c = sel_string sel /\ sc_type c = FloatType /\ sc_const c = 0%N /\ sc_fn c = Some f
    end.
  (** the result column of an entry of a map: a value that is not nil and has a type *)
  Definition column_of_entry (kv : string * option V) (c : scol) : Prop :=
    exists v, snd kv = Some v /\ value_type v = Ok (sc_type c) /\ sc_name c = fst kv /\ sc_const c = 0%N /\ sc_fn c = None.
  (** the columns an option gives, [base] being the table's schema given before it *)
  Definition gives (base : option schema) (o : sopt V) (cs : list scol) : Prop :=
    match o with
    | SoColumns l => cs = l
    | SoSelectors l => exists b, base = Some b /\ Forall2 (column_for b) l cs
    | SoObject es => Forall2 column_of_entry es cs
    | _ => False
    end.
  Definition about_columns (o : sopt V) : Prop :=
    match o with SoColumns _ | SoSelectors _ | SoObject _ => True | _ => False end.
  (** of the options [opts], those that start after the first [n] of them give no columns *)
  Definition nothing_after (n : nat) (opts : list (sopt V)) : Prop :=
    forall before o after base cs, opts = before ++ o :: after -> n <= length before ->
      last_given a_base before None base -> ~ gives base o cs.
End Options.
