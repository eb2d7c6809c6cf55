(** Statements that make the parser panic: lists of columns and expressions in indexes. *)
From Coq Require Import Lia.
From Verif Require Import GoBase ModelUtil ModelNum ModelFn ModelQuery ModelEbnf ModelGrammar ModelLex ModelVisitor SpecRound SpecSelect SpecSpell SpecNone
  FactsBase ProofFn ProofEbnf ProofMachine ProofLex ProofParse ProofRound ProofRound2 ProofRound3 ProofRound4 ProofRound5 ProofRound8 ProofRound10 ProofRound13 ProofSelect2 ProofSpell ProofSpell3 ProofNone.
Local Open Scope string_scope.
Local Open Scope list_scope.


Definition sum_pieces (a k o b : string) : list piece := lp :: spaced [[PWord a]; op k o b] ++ [rp].
Definition symbol (o k : string) : Prop := In (o, k) [("+", "PLUS"); ("-", "MINUS"); ("*", "STAR"); ("/", "DIV"); ("%", "MOD")].
Lemma symbol_of o : In o ["+"; "-"; "*"; "/"; "%"] -> exists k, symbol o k.
Proof. intro H. cbn [In] in H. repeat (destruct H as [<-|H]; [eexists; vm_compute; intuition|]). contradiction. Qed.
Ltac each_symbol S := unfold symbol in S; cbn [In] in S; repeat (destruct S as [[= <- <-]|S]; [|]); [..|contradiction S].
Lemma good_sum a k o b : plain a -> symbol o k -> plain b -> good (sum_pieces a k o b).
Proof. intros A S B. unfold sum_pieces. each_symbol S; goods; (apply good_opw; [reflexivity|assumption]). Qed.
Lemma shown_sum a k o b : plain a -> symbol o k -> plain b -> shown (sum_pieces a k o b) = [open_; idt a; mkTok k o; idt b; close_].
Proof.
  intros A S B. unfold sum_pieces. change (lp :: spaced [[PWord a]; op k o b] ++ [rp]) with ([lp] ++ spaced [[PWord a]; op k o b] ++ [rp]). rewrite !shown_app.
  each_symbol S; shows; syms; reflexivity.
Qed.
Lemma glue_sum a k o b : glue (sum_pieces a k o b) = in_parentheses (line [a; o; b]).
Proof. unfold sum_pieces. rewrite glue_cons', glue_app, glue_spaced. cbn [map]. rewrite glue_opw, glue_one. reflexivity. Qed.
Lemma index_panics entries (uq : bool) i t a b o : plain i -> plain t -> In o ["+"; "-"; "*"; "/"; "%"] -> plain a -> plain b ->
  parse entries (line ("CREATE" :: given uq "UNIQUE" ++ ["INDEX"; i; "ON"; t; in_parentheses (line [a; o; b])])) = Panic.
Proof.
  intros I Pt O A B. destruct (symbol_of o O) as (kd & S). clear O.
  destruct uq; (eapply (by_into _ Panic (spaced _)); [|]).
  - instantiate (1 := [kw ["CREATE"]; kw ["UNIQUE"]; kw ["INDEX"]; [PWord i]; kw ["ON"]; [PWord t]; sum_pieces a kd o b]).
    split; [goods; apply good_sum; assumption|]. rewrite shown_spaced. cbn [flat_map]. rewrite (shown_sum a kd o b A S B). show_words. rewrite ?app_nil_r. cbn [app].
    split; [not_end|]. each_symbol S; (eexists; split; [read_all|vm_compute; reflexivity]).
  - rewrite glue_spaced. cbn [map app given]. rewrite glue_sum, ?glue_one. reflexivity.
  - instantiate (1 := [kw ["CREATE"]; kw ["INDEX"]; [PWord i]; kw ["ON"]; [PWord t]; sum_pieces a kd o b]).
    split; [goods; apply good_sum; assumption|]. rewrite shown_spaced. cbn [flat_map]. rewrite (shown_sum a kd o b A S B). show_words. rewrite ?app_nil_r. cbn [app].
    split; [not_end|]. each_symbol S; (eexists; split; [read_all|vm_compute; reflexivity]).
  - rewrite glue_spaced. cbn [map app given]. rewrite glue_sum, ?glue_one. reflexivity.
Qed.

(** lists of columns *)
Lemma update_panics entries t c d cs x : plain t -> plain c -> plain d -> Forall plain cs -> plain x ->
  parse entries (line ["UPDATE"; t; "SET"; in_parentheses (join ", " (c :: d :: cs)); "="; x]) = Panic.
Proof.
  intros Pt Pc Pd Fc X. assert (Fd : Forall plain (d :: cs)) by (constructor; assumption).
  eapply (by_into _ Panic (spaced [kw ["UPDATE"]; [PWord t]; kw ["SET"]; par_names c (d :: cs); op "ASSIGN" "=" x])).
  - split; [goods; [apply good_par_names; assumption|apply good_opw; [reflexivity|assumption]]|].
    rewrite shown_spaced. cbn [flat_map]. rewrite (shown_par_names c (d :: cs) Pc Fd). show_words. syms. rewrite ?app_nil_r. cbn [app]. split; [not_end|]. eexists. split.
    + intros k K tl r T H; toks; enter. change (clist (fun x0 : string => [idt x0]) (d :: cs)) with ([comma; idt d] ++ clist id1 cs). toks. go_known (Some stmt_follow) 0 AtStar.
      by_reads (names_reads cs None ["CLOSE_PAR"%string] ltac:(not_in)); [left; reflexivity|]; read_on T tl H.
    + finds. reflexivity.
  - rewrite glue_spaced. cbn [map app given]. rewrite glue_par_names, glue_opw, ?glue_one. reflexivity.
Qed.
Lemma columns_panic entries ws n c cs a u : conflict ws -> object n -> plain c -> Forall plain cs -> plain a -> plain u ->
  parse entries (line (ws ++ ["INTO"; n; in_parentheses (join ", " (c :: cs)); "SELECT"; a; "FROM"; u])) = Panic.
Proof.
  intros C N Pc Fc Pa Pu. apply conflict_heads in C.
  assert (Tb : exists s t, n = glue (table_word s t) /\ (forall x, s = Some x -> plain x) /\ plain t).
  { apply object_is in N. destruct N as [N|(s & x & -> & Ps & Px)]; [exists None, n|exists (Some s), x]; (split; [unfold table_word; rewrite ?glue_schema, ?glue_one; reflexivity|]); (split; [|assumption]); intros y [= <-]; assumption. }
  destruct Tb as (s & t & -> & Hs & Pt). clear N. pose proof (good_table_word s t Hs Pt) as Gt. pose proof (shown_table_word s t Hs Pt) as St.
  eapply (by_into _ Panic (spaced (map (fun w => kw [w]) ws ++ [kw ["INTO"]; table_word s t; par_names c cs; kw ["SELECT"]; [PWord a]; kw ["FROM"]; [PWord u]]))).
  - split; [each_head C; cbn [map app]; goods; first [exact Gt|apply good_par_names; assumption]|].
    rewrite shown_spaced. each_head C; cbn [map app flat_map]; rewrite (shown_par_names c cs Pc Fc), St; show_words; rewrite ?app_nil_r; cbn [app];
    (split; [not_end|]); (destruct s as [s|]; cbn [table_toks app]; (eexists; split;
    [intros k K tl r T H; toks; enter; go_known (Some stmt_follow) 0 AtStar;
      by_reads (names_reads cs None ["CLOSE_PAR"%string] ltac:(not_in)); [left; reflexivity|]; read_on T tl H|finds; reflexivity])).
  - each_head C; rewrite glue_spaced; cbn [map app given]; rewrite glue_par_names, ?glue_one; reflexivity.
Qed.

Lemma panic entries ws : panicking ws -> parse entries (line ws) = Panic.
Proof.
  intros [ws' t C T|ws' t c u C T A U|ws' t cs c u C T Cs A U|t a cs c T A Cs C|u i t o a b I T O A B]; try (destruct Cs as [Ne F]; destruct cs as [|d cs]; [contradiction Ne; reflexivity|];
    inversion F as [|? ? D F']; subst; assert (Fp : Forall plain cs) by (revert F'; apply Forall_impl; exact any_is); apply any_is in D); repeat match goal with H : any_name _ |- _ => apply any_is in H end.
  - apply default_panics; assumption.
  - apply select_panics; assumption.
  - apply columns_panic; assumption.
  - apply update_panics; assumption.
  - apply index_panics; assumption.
Qed.
