(** Go base notions shared by the model: results, maps, and the part of Go's
    package [strings] that /repo uses.  Definitions only. *)
From Coq Require Export Ascii String.
From Coq Require Export List Arith NArith ZArith Bool Lia.
From Coq Require Export Permutation.
Export ListNotations.
#[global] Open Scope string_scope.
#[global] Open Scope list_scope.
#[global] Open Scope nat_scope.

(** Error kinds.  Go wraps sentinel errors with [fmt.Errorf("%w ...")]; the model
    keeps the sentinel and drops the message.
    Sources: sql/errors/errors.go:23-44, sql/fn/errors.go:23-38, sql/net/errors.go:22-23,
    sql/query/errors.go:23-32, sql/stmt/errors.go:22-25, sql/system/errors.go:23-26,
    sql/parser/errors.go:22.  [ErrCast] stands for any error of go-safecast, [ErrParse] for an
    ANTLR syntax error, [ErrOther] for an error built by fmt.Errorf without a sentinel. *)
Inductive err :=
| ErrNotFound | ErrInvalid | ErrNotSupported | ErrNotImplemented
| ErrExist | ErrNotExist | ErrNoRows | ErrNoData | ErrEmptyQuery | ErrParse
| ErrNegativeValue | ErrNotSet | ErrCast | ErrOther.

(** The outcome of a Go call returning [(A, error)]; [Panic] is a run-time panic. *)
Inductive result (A : Type) := Ok (a : A) | Err (e : err) | Panic.
Arguments Ok {A} a.
Arguments Err {A} e.
Arguments Panic {A}.

Definition rbind {A B} (r : result A) (f : A -> result B) : result B :=
  match r with Ok a => f a | Err e => Err e | Panic => Panic end.

Definition is_ok {A} (r : result A) : bool :=
  match r with Ok _ => true | _ => false end.

(** ** Go maps: association lists.  [mset] replaces, so keys stay distinct.
    Iteration order is not part of this type: wherever the code ranges over a map
    the model takes an arbitrary permutation of the entries as an argument. *)
Section GoMap.
  Context {K V : Type} (eqb : K -> K -> bool).
  Fixpoint mget (k : K) (m : list (K * V)) : option V :=
    match m with
    | [] => None
    | (k', v) :: m' => if eqb k k' then Some v else mget k m'
    end.
  Fixpoint mdel (k : K) (m : list (K * V)) : list (K * V) :=
    match m with
    | [] => []
    | (k', v) :: m' => if eqb k k' then mdel k m' else (k', v) :: mdel k m'
    end.
  Definition mset (k : K) (v : V) (m : list (K * V)) : list (K * V) :=
    (k, v) :: mdel k m.
End GoMap.

(** ** Package strings, on bytes.
    Simplification: case conversion is ASCII only (Go folds Unicode letters too). *)

(** unicode.ToUpper on ASCII. *)
Definition upper_ascii (c : ascii) : ascii :=
  let n := N_of_ascii c in
  if (N.leb 97 n && N.leb n 122)%bool then ascii_of_N (n - 32) else c.

(** unicode.ToLower on ASCII. *)
Definition lower_ascii (c : ascii) : ascii :=
  let n := N_of_ascii c in
  if (N.leb 65 n && N.leb n 90)%bool then ascii_of_N (n + 32) else c.

Fixpoint smap (f : ascii -> ascii) (s : string) : string :=
  match s with
  | EmptyString => EmptyString
  | String c s' => String (f c) (smap f s')
  end.

(** strings.ToUpper *)
Definition to_upper (s : string) : string := smap upper_ascii s.
(** strings.ToLower *)
Definition to_lower (s : string) : string := smap lower_ascii s.
(** strings.EqualFold *)
Definition equal_fold (a b : string) : bool := String.eqb (to_lower a) (to_lower b).

(** strings.HasPrefix(s, p) *)
Fixpoint has_prefix (p s : string) : bool :=
  match p, s with
  | EmptyString, _ => true
  | String a p', String b s' => Ascii.eqb a b && has_prefix p' s'
  | String _ _, EmptyString => false
  end.

Fixpoint srev_app (s acc : string) : string :=
  match s with
  | EmptyString => acc
  | String c s' => srev_app s' (String c acc)
  end.
Definition srev (s : string) : string := srev_app s EmptyString.

(** strings.HasSuffix(s, p) *)
Definition has_suffix (p s : string) : bool := has_prefix (srev p) (srev s).

(** strings.Index(s, p): offset of the first occurrence, [None] for -1. *)
Fixpoint sindex (p s : string) : option nat :=
  if has_prefix p s then Some 0
  else match s with
       | EmptyString => None
       | String _ s' => match sindex p s' with Some n => Some (S n) | None => None end
       end.

(** strings.Contains(s, p) *)
Definition scontains (p s : string) : bool :=
  match sindex p s with Some _ => true | None => false end.

(** Drop the first n bytes: s[n:] *)
Fixpoint sdrop (n : nat) (s : string) : string :=
  match n, s with
  | O, _ => s
  | S n', String _ s' => sdrop n' s'
  | S _, EmptyString => EmptyString
  end.
(** First n bytes: s[:n] *)
Fixpoint stake (n : nat) (s : string) : string :=
  match n, s with
  | O, _ => EmptyString
  | S n', String c s' => String c (stake n' s')
  | S _, EmptyString => EmptyString
  end.

(** strings.Replace(s, old, new, 1) for a non-empty [old]. *)
Definition replace1 (old new s : string) : string :=
  match sindex old s with
  | Some n => (stake n s ++ new ++ sdrop (n + String.length old) s)%string
  | None => s
  end.

Fixpoint sexists (f : ascii -> bool) (s : string) : bool :=
  match s with
  | EmptyString => false
  | String c s' => f c || sexists f s'
  end.

(** byte membership: strings.ContainsRune on ASCII *)
Definition smem (c : ascii) (s : string) : bool := sexists (Ascii.eqb c) s.

Fixpoint trim_left (cut s : string) : string :=
  match s with
  | EmptyString => EmptyString
  | String c s' => if smem c cut then trim_left cut s' else s
  end.

(** strings.Trim(s, cutset) *)
Definition trim (cut s : string) : string :=
  srev (trim_left cut (srev (trim_left cut s))).

(** strings.Join(l, sep) *)
Fixpoint join (sep : string) (l : list string) : string :=
  match l with
  | [] => EmptyString
  | [x] => x
  | x :: l' => (x ++ sep ++ join sep l')%string
  end.

(** Remove every occurrence of a byte: strings.ReplaceAll(s, c, "") *)
Fixpoint remove_byte (c : ascii) (s : string) : string :=
  match s with
  | EmptyString => EmptyString
  | String d s' => if Ascii.eqb c d then remove_byte c s' else String d (remove_byte c s')
  end.

(** strings.Split(s, sep) for a one-byte separator. *)
Fixpoint split_byte (c : ascii) (s : string) : list string :=
  match s with
  | EmptyString => [EmptyString]
  | String d s' =>
      if Ascii.eqb c d then EmptyString :: split_byte c s'
      else match split_byte c s' with
           | [] => [String d EmptyString]
           | w :: ws => String d w :: ws
           end
  end.
