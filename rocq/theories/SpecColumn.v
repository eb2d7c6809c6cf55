(** Specification of result columns: what the last option of a kind gives, or the default; and the columns whose
    definition can be written in a CREATE TABLE. *)
From Verif Require Import GoBase ModelFn ModelQuery ModelAggregate ModelColumn SpecRound.

(** [x] is what the last option that [pick] recognises gives *)
Definition is_last {X} (pick : copt -> option X) (opts : list copt) (default x : X) : Prop :=
  (exists before o after, opts = before ++ o :: after /\ pick o = Some x /\ Forall (fun o => pick o = None) after)
  \/ (Forall (fun o => pick o = None) opts /\ x = default).
Definition a_name (o : copt) := match o with CoName n => Some n | _ => None end.
Definition a_type (o : copt) := match o with CoType t => Some t | _ => None end.
Definition a_constraint (o : copt) := match o with CoConst c => Some c | _ => None end.
Definition a_function (o : copt) := match o with CoFn f => Some f | _ => None end.

(** a column with a name and a type that has one (but BINARY and DOUBLE PRECISION), without constraint *)
Definition writable (c : scol) : Prop :=
  bare_name (sc_name c) /\ ~ In (sc_type c) [UnknownData; BinaryType; DoublePrecisionType; NameType] /\ sc_const c = 0%N.
(** CREATE TABLE IF NOT EXISTS t (definition, definition, ...) *)
Definition create_text (t : string) (cols : list scol) : string :=
  ("CREATE TABLE IF NOT EXISTS " ++ t ++ " (" ++ String.concat ", " (map sc_definition_string cols) ++ ")")%string.
