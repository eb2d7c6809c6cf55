(** What a connection should answer. *)
From Verif Require Import GoBase ModelNet SpecNet ModelFunc SpecFunc ModelConn.

(** the slice lies in an array of the memory *)
Definition lies (h : list (list string)) (s : slice) : Prop :=
  sl_arr s < length h /\ sl_off s + sl_cap s <= length (nth (sl_arr s) h []) /\ sl_len s <= sl_cap s.

Section Spec.
  Context {T S : Type} (span : T -> S).
  Definition gives_db (o : @nopt T) : option string := match o with NoDatabase x => Some x | _ => None end.
  Definition gives_user (o : @nopt T) : option string := match o with NoUser x => Some x | _ => None end.
  Definition gives_id (o : @nopt T) : option N := match o with NoID x => Some x | _ => None end.
  Definition gives_tracer (o : @nopt T) : option (option T) := match o with NoTracer x => Some x | _ => None end.
  Definition gives_schemas (h : list (list string)) (o : @nopt T) : option (list string) := match o with NoSchemas x => Some (elems h x) | _ => None end.
  Definition given_array (o : @nopt T) (a : nat) : Prop := exists s, o = NoSchemas s /\ sl_arr s = a.

  Record seen := mkSeen { s_view : view; s_ts : N; s_uuid : N; s_id : N; s_tracer : option T }.
  Definition expect (v : seen) (o : @ncall T) : seen * @nout T S :=
    let like w r := (mkSeen w (s_ts v) (s_uuid v) (s_id v) (s_tracer v), r) in
    let w := s_view v in
    match o with
    | NSetUser u => like (mkView u (v_db w) (v_schemas w)) NUnit
    | NSetDatabase d => like (mkView (v_user w) d []) NUnit
    | NSetSchemas l => like (mkView (v_user w) (v_db w) (add_new (v_schemas w) l)) NUnit
    | NSetSpanContext t => (mkSeen w (s_ts v) (s_uuid v) (s_id v) t, NUnit)
    | NUser => (v, NStr (v_user w))
    | NDatabase => (v, NStr (v_db w))
    | NSchemas => (v, NList (v_schemas w))
    | NTimestamp => (v, NNum (s_ts v))
    | NUUID => (v, NNum (s_uuid v))
    | NID => (v, NNum (s_id v))
    | NSpanContext => (v, NCtx (s_tracer v))
    | NSpan => (v, NRes (match s_tracer v with Some t => Ok (span t) | None => Panic end))
    | NWrite _ _ _ | NScribble _ _ _ => (v, NUnit)
    end.
  Fixpoint expects (v : seen) (l : list (@ncall T)) : list (@nout T S) :=
    match l with [] => [] | o :: l' => let (v', r) := expect v o in r :: expects v' l' end.
  (** the caller writes into arrays it had before, other than those it gave to the connection *)
  Definition keeps_off (h : list (list string)) (opts : list (@nopt T)) (o : @ncall T) : Prop :=
    match o with NWrite a _ _ => a < length h /\ Forall (fun p => ~ given_array p a) opts | _ => True end.
End Spec.
