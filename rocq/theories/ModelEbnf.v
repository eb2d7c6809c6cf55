(** Grammars in the notation of ANTLR and how ANTLR reads a token list with them.

    ANTLR's adaptive LL( * ) prediction (runtime library, not in the repository) takes at every decision the
    lowest-numbered alternative with which the whole rest of the input can still be parsed; a greedy
    loop or option prefers another round, a non-greedy one prefers to leave.  That is the first
    complete parse in the order in which a backtracking parser tries the alternatives, which is what
    [run] computes.  When there is no complete parse ANTLR reports a syntax error; how it recovers
    from one does not matter, since ParseString then returns the error (parser_antlr.go:83-85). *)
From Verif Require Import GoBase.

(** A token: the name of its type and its text (the antlr.Token of the runtime). *)
Record token := mkTok { tk : string; tx : string }.

(** A parse tree: the rule contexts and terminal nodes of the runtime.  A child carries the label it
    has in the grammar, or the empty text. *)
Inductive tree := Leaf (t : token) | Node (rule : string) (kids : list (string * tree)).
Definition children := list (string * tree).

(** The operators of the grammar notation; [Rule name p] is a reference to a rule, called with
    precedence p. *)
Inductive gram :=
| Eps | Fail | Tok (kind : string) | Rule (name : string) (p : nat)
| Seq (a b : gram) | Alt (a b : gram) | Star (a : gram) | StarNG (a : gram) | Lab (label : string) (a : gram)
| LeftRec (name : string) (a b : gram) | Wrap (a : gram).
Fixpoint seq (l : list gram) : gram := match l with [] => Eps | [g] => g | g :: r => Seq g (seq r) end.
Fixpoint alt (l : list gram) : gram := match l with [] => Fail | [g] => g | g :: r => Alt g (alt r) end.
Definition Opt (g : gram) : gram := Alt g Eps.
Definition Plus (g : gram) : gram := Seq g (Star g).
Definition PlusNG (g : gram) : gram := Seq g (StarNG g).
(** The guard of a loop alternative of a left recursive rule (Precpred in the runtime). *)
Definition prec (p level : nat) (g : gram) : gram := if p <=? level then g else Fail.

Definition set_label (l : string) (cs : children) : children := map (fun c => (l, snd c)) cs.
(** Every round of the loop of a left recursive rule puts what was read so far in a node of its own
    (PushNewRecursionContext in the runtime); a round is a [Wrap]ped node here. *)
Fixpoint nest (name : string) (acc rounds : children) : children :=
  match rounds with
  | (_, Node _ cs) :: r => nest name (("", Node name acc) :: cs) r
  | _ => acc
  end.

Inductive outcome := Found (c : children) | NotFound | OutOfFuel.

Section Run.
  Context (rule : string -> nat -> gram).

  (** [run n g ts k]: the first way of reading a prefix of ts with g such that k accepts the children
      and the rest.  n bounds the depth of rules and the rounds of loops. *)
  Fixpoint run (n : nat) : gram -> list token -> (children -> list token -> outcome) -> outcome :=
    match n with
    | O => fun _ _ _ => OutOfFuel
    | S n' =>
        fix go (g : gram) (ts : list token) (k : children -> list token -> outcome) {struct g} : outcome :=
          match g with
          | Eps => k [] ts
          | Fail => NotFound
          | Tok kind =>
              match ts with
              | t :: r => if String.eqb (tk t) kind then k [(""%string, Leaf t)] r else NotFound
              | [] => NotFound
              end
          | Rule name p => run n' (rule name p) ts (fun cs r => k [(""%string, Node name cs)] r)
          | Seq a b => go a ts (fun ca r => go b r (fun cb r' => k (ca ++ cb) r'))
          | Alt a b => match go a ts k with NotFound => go b ts k | o => o end
          | Star a =>
              match go a ts (fun ca r => run n' (Star a) r (fun cb r' => k (ca ++ cb) r')) with
              | NotFound => k [] ts
              | o => o
              end
          | StarNG a =>
              match k [] ts with
              | NotFound => go a ts (fun ca r => run n' (StarNG a) r (fun cb r' => k (ca ++ cb) r'))
              | o => o
              end
          | Lab l a => go a ts (fun cs r => k (set_label l cs) r)
          | LeftRec name a b =>
              go a ts (fun ca r => run n' (Star (Wrap b)) r (fun rounds r' => k (nest name ca rounds) r'))
          | Wrap a => go a ts (fun cs r => k [(""%string, Node "" cs)] r)
          end
    end.
End Run.

(** ** What the generated contexts offer *)

(** GetText: the texts of the leaves, without the hidden tokens in between *)
Fixpoint text (t : tree) : string :=
  match t with
  | Leaf k => tx k
  | Node _ cs => (fix go (cs : children) : string :=
                    match cs with [] => ""%string | (_, c) :: r => (text c ++ go r)%string end) cs
  end.
Definition kids (t : tree) : children := match t with Leaf _ => [] | Node _ cs => cs end.
Definition is_rule (name : string) (t : tree) : bool := match t with Node r _ => String.eqb r name | Leaf _ => false end.
Definition is_tok (kind : string) (t : tree) : bool := match t with Leaf k => String.eqb (tk k) kind | Node _ _ => false end.
(** ctx.X() of a rule X: the first such child, or nil; ctx.AllX(): all of them *)
Definition subs (name : string) (t : tree) : list tree := filter (is_rule name) (map snd (kids t)).
Definition sub (name : string) (t : tree) : option tree := hd_error (subs name t).
(** ctx.TOKEN() is not nil *)
Definition has_tok (kind : string) (t : tree) : bool := existsb (is_tok kind) (map snd (kids t)).
(** ctx.GetLabel() *)
Definition labelled (l : string) (t : tree) : list tree :=
  map snd (filter (fun c => String.eqb (fst c) l) (kids t)).
Definition lab (l : string) (t : tree) : option tree := hd_error (labelled l t).
