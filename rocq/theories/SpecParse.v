(** What it means for a list of tokens to belong to a grammar, by the usual rules of EBNF, and for a tree
    to be a parse tree of it.  Nothing here says how the tree is found. *)
From Verif Require Import GoBase ModelEbnf.

Section Derives.
  Context (rule : string -> nat -> gram).
  (** [derives g w cs]: g generates the tokens w, and cs are the nodes of one derivation. *)
  Inductive derives : gram -> list token -> children -> Prop :=
  | d_eps : derives Eps [] []
  | d_tok t : derives (Tok (tk t)) [t] [(""%string, Leaf t)]
  | d_rule name p w cs : derives (rule name p) w cs -> derives (Rule name p) w [(""%string, Node name cs)]
  | d_seq a b u v ca cb : derives a u ca -> derives b v cb -> derives (Seq a b) (u ++ v) (ca ++ cb)
  | d_left a b w cs : derives a w cs -> derives (Alt a b) w cs
  | d_right a b w cs : derives b w cs -> derives (Alt a b) w cs
  | d_star0 a : derives (Star a) [] []
  | d_star a u v ca cb : derives a u ca -> derives (Star a) v cb -> derives (Star a) (u ++ v) (ca ++ cb)
  | d_starng0 a : derives (StarNG a) [] []
  | d_starng a u v ca cb : derives a u ca -> derives (StarNG a) v cb -> derives (StarNG a) (u ++ v) (ca ++ cb)
  | d_lab l a w cs : derives a w cs -> derives (Lab l a) w (set_label l cs)
  | d_wrap a w cs : derives a w cs -> derives (Wrap a) w [(""%string, Node "" cs)]
  | d_leftrec name a b u v ca rounds :
      derives a u ca -> derives (Star (Wrap b)) v rounds ->
      derives (LeftRec name a b) (u ++ v) (nest name ca rounds).

  (** the token list is a sentence of the grammar started at the rule *)
  Definition sentence (start : string) (w : list token) : Prop := exists cs, derives (Rule start 0) w cs.
End Derives.

(** the tokens at the leaves of a tree, from left to right *)
Fixpoint leaves (t : tree) : list token :=
  match t with
  | Leaf k => [k]
  | Node _ cs => (fix go (cs : children) : list token :=
                    match cs with [] => [] | (_, c) :: r => leaves c ++ go r end) cs
  end.
