(** A parser that is used for one text after the other. *)
From Verif Require Import GoBase ModelQuery ModelVisitor.

(** the state of a new parser after some texts: whether its listener has seen no error *)
Definition after_texts (entries : list (dtype * string)) (texts : list string) : bool :=
  fold_left (fun clean q => snd (parse_string entries clean q)) texts true.
(** what the parser then answers for one more text *)
Definition answer (entries : list (dtype * string)) (texts : list string) (q : string) : result (list stmt) :=
  fst (parse_string entries (after_texts entries texts) q).
