(** Reading back printed statements: column definitions and CREATE TABLE. *)
From Coq Require Import Lia Permutation.
From Verif Require Import GoBase ModelUtil ModelNum ModelFn ModelQuery ModelEbnf ModelGrammar ModelLex ModelVisitor
  SpecQuery SpecParse SpecRound FactsBase ProofEbnf ProofMachine ProofFn ProofNum ProofQuery ProofParse ProofLex ProofRound ProofRound2 ProofRound3
  ProofRound4 ProofRound5.

(** ** Column definitions *)

Record cdef := mkCdef { cd_name : string; cd_type : dtype; cd_len : Z }.
(** what is not the start of a key *)
Definition special_words : list string := ["PRIMARY"; "KEY"; "UNIQUE"; "INDEX"; "CONSTRAINT"].
Definition column_word (x : string) : Prop := plain x /\ existsb (String.eqb (unescape_name_string x)) special_words = false.
Definition cdef_ok (d : cdef) : Prop :=
  column_word (cd_name d) /\ ~ In (cd_type d) [UnknownData; BinaryType; DoublePrecisionType; NameType] /\ (cd_len d = (-1)%Z \/ (0 < cd_len d < 2 ^ 63)%Z).
Definition cdef_column (d : cdef) : column := new_def_column (cd_name d) (new_data_def (cd_type d) (cd_len d)).
Definition cdef_read (d : cdef) : column := new_def_column (unescape_name_string (cd_name d)) (new_data_def (cd_type d) (cd_len d)).
Definition type_toks (t : dtype) : list token := shown [PWord (data_type_string t)].
Definition len_pieces (l : Z) : list piece := if (0 <? l)%Z then [lp; PNum (show_Z l); rp] else [].
Definition cdef_pieces (d : cdef) : list piece := spaced [[PWord (cd_name d)]; PWord (data_type_string (cd_type d)) :: len_pieces (cd_len d)].
Definition cdef_toks (d : cdef) : list token := idt (cd_name d) :: type_toks (cd_type d) ++ shown (len_pieces (cd_len d)).

(** the words that types are: names, or the keywords TEXT and SET *)
Lemma type_word t : ~ In t [UnknownData; BinaryType; DoublePrecisionType; NameType] ->
  is_word (data_type_string t) = true /\ In (kind_of_word (data_type_string t)) ["IDENTIFIER"; "TEXT_"; "SET_"]%string
  /\ In (t, data_type_string t) data_type_strings.
Proof.
  intro N. destruct t; try (exfalso; apply N; cbn; tauto); (split; [vm_compute; reflexivity|]); split; vm_compute; tauto.
Qed.
Definition type_tree (t : dtype) : tree :=
  Node "name" [(""%string, Node "any_name"
    [(""%string, if String.eqb (kind_of_word (data_type_string t)) "IDENTIFIER" then Leaf (mkTok (kind_of_word (data_type_string t)) (data_type_string t))
                 else Node "keyword" [(""%string, Leaf (mkTok (kind_of_word (data_type_string t)) (data_type_string t)))])])].
Definition len_tree (l : Z) : children :=
  if (0 <? l)%Z then [(""%string, Leaf open_); (""%string, Node "signed_number" [(""%string, Leaf (mkTok "NUMERIC_LITERAL" (show_Z l)))]); (""%string, Leaf close_)]
  else [].
Definition cdef_tree (d : cdef) : tree :=
  Node "column_def" [(""%string, Node "column_name" (ident (cd_name d))); (""%string, Node "type_name" ((""%string, type_tree (cd_type d)) :: len_tree (cd_len d)))].
Definition cdefc (d : cdef) : children := [(""%string, cdef_tree d)].

Definition def_ends : list string := ["COMMA"; "CLOSE_PAR"; "SCOL"; "EOF"].
Lemma cdef_reads d bot : cdef_ok d -> reads (Rule "column_def" 0) (cdef_toks d) (cdefc d) bot def_ends.
Proof.
  intros (_ & N & _) k K [|[kd tx] rest] r T H; [contradiction|]. destruct d as [x t l]. cbn [cd_name cd_type cd_len] in *.
  unfold cdef_toks, cdefc, cdef_tree, type_toks, len_pieces, len_tree in *. cbn [cd_name cd_type cd_len] in *. destruct (type_word t N) as (_ & W & _).
  rewrite shown_word. unfold type_tree in H. remember (data_type_string t) as w eqn:Ew. remember (kind_of_word w) as kw_ eqn:Ek. clear Ew Ek N.
  cbn [heads tk] in T. unfold def_ends in T. cbn [In] in T, W. enter.
  destruct (0 <? l)%Z.
  - change (shown [lp; PNum (show_Z l); rp]) with [open_; mkTok "NUMERIC_LITERAL" (show_Z l); close_]. remember (show_Z l) as num eqn:En. clear En.
    each_kind W; cbn [String.eqb Ascii.eqb Bool.eqb] in H; each_kind T;
      (toks; go_known none 1 AtEnd; exact H).
  - change (shown []) with (@nil token).
    each_kind W; cbn [String.eqb Ascii.eqb Bool.eqb] in H; each_kind T;
      (toks; go_known none 1 AtEnd; exact H).
Qed.
