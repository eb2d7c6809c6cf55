(** Reading back printed statements: SELECT. *)
From Coq Require Import Lia Permutation.
From Verif Require Import GoBase ModelUtil ModelNum ModelFn ModelQuery ModelEbnf ModelGrammar ModelLex ModelVisitor
  SpecFn SpecQuery SpecParse SpecRound FactsBase ProofEbnf ProofMachine ProofFn ProofNum ProofQuery ProofParse ProofLex ProofRound ProofRound2 ProofRound3
  ProofRound4 ProofRound5 ProofRound6 ProofRound7 ProofRound8 ProofRound9.

(** ** Selectors *)

(** an argument of a function: a number or a name *)
Definition farg : Type := bool * string.
Definition farg_ok (a : farg) : Prop := if fst a then is_num (snd a) = true else plain (snd a).
Definition farg_piece (a : farg) : list piece := [operand (fst a) (snd a)].
Definition farg_toks (a : farg) : list token := [operand_tok (fst a) (snd a)].
Definition farg_tree (a : farg) : tree := Node "expr" [(""%string, if fst a then lit_tree (LNum (snd a)) else Node "column_name" (ident (snd a)))].
Definition fargc (a : farg) : children := [(""%string, farg_tree a)].

Inductive rsel := RAll | RCol (c : string) | RFnAll (f : string) | RFnNone (f : string) | RFn (f : string) (a : farg) (args : list farg).
Definition fn_ok (f : string) : Prop := plain f /\ to_upper f = f.
Definition rsel_ok (s : rsel) : Prop :=
  match s with
  | RAll => True
  | RCol c => plain c
  | RFnAll f | RFnNone f => fn_ok f
  | RFn f a args => fn_ok f /\ Forall farg_ok (a :: args)
  end.
Definition rsel_selector (s : rsel) : selector :=
  match s with
  | RAll => SelCol (new_column "*")
  | RCol c => SelCol (new_column c)
  | RFnAll f => SelFn (new_func f ["*"%string])
  | RFnNone f => SelFn (new_func f [])
  | RFn f a args => SelFn (new_func f (map snd (a :: args)))
  end.
Definition star : token := mkTok "STAR" "*".
Definition star_ : piece := PSym "STAR" "*".
Definition rsel_pieces (s : rsel) : list piece :=
  match s with
  | RAll => [star_]
  | RCol c => [PWord c]
  | RFnAll f => [PWord f; lp; star_; rp]
  | RFnNone f => [PWord f; lp; rp]
  | RFn f a args => PWord f :: lp :: (farg_piece a ++ listed farg_piece args) ++ [rp]
  end.
Definition rsel_toks (s : rsel) : list token :=
  match s with
  | RAll => [star]
  | RCol c => [idt c]
  | RFnAll f => [idt f; open_; star; close_]
  | RFnNone f => [idt f; open_; close_]
  | RFn f a args => idt f :: open_ :: farg_toks a ++ clist farg_toks args ++ [close_]
  end.
Definition fn_tree (f : string) (cs : children) : tree :=
  Node "expr" [(""%string, Node "function" ((""%string, Node "function_name" (ident f)) :: (""%string, Leaf open_) :: cs ++ [(""%string, Leaf close_)]))].
Definition rsel_tree (s : rsel) : tree :=
  Node "result_column"
    [(""%string, match s with
                 | RAll => Leaf star
                 | RCol c => Node "expr" (col c)
                 | RFnAll f => fn_tree f [(""%string, Leaf star)]
                 | RFnNone f => fn_tree f []
                 | RFn f a args => fn_tree f (fargc a ++ ctree fargc args)
                 end)].
Definition rselc (s : rsel) : children := [(""%string, rsel_tree s)].

Lemma good_rsel s : rsel_ok s -> good (rsel_pieces s).
Proof.
  destruct s as [|c|f|f|f a args]; cbn [rsel_ok rsel_pieces].
  - intros _. repeat split.
  - apply good_name.
  - intros [F _]. change [PWord f; lp; star_; rp] with ([PWord f] ++ lp :: [star_] ++ rp :: []). goods. repeat split.
  - intros [F _]. change [PWord f; lp; rp] with ([PWord f] ++ lp :: [] ++ rp :: []). goods.
  - intros [[F _] A]. change (PWord f :: lp :: (farg_piece a ++ listed farg_piece args) ++ [rp]) with ([PWord f] ++ lp :: (farg_piece a ++ listed farg_piece args) ++ rp :: []).
    assert (G : Forall (fun x => good (farg_piece x)) (a :: args)).
    { revert A. apply Forall_impl. intros [[] y] Y; [apply good_num|apply good_name]; exact Y. }
    inversion G; subst. goods; assumption.
Qed.
Definition sel_text (s : selector) : string := match s with SelFn f => func_string f | SelCol c => c_name c end.
Lemma farg_glue a : glue (farg_piece a) = snd a.
Proof. destruct a as [[] y]; apply append_nil_r. Qed.
Lemma glue_rsel s : rsel_ok s -> glue (rsel_pieces s) = sel_text (rsel_selector s).
Proof.
  destruct s as [|c|f|f|f a args]; cbn [rsel_ok rsel_pieces].
  - reflexivity.
  - intros _. apply glue_one.
  - intros [_ U]. unfold sel_text, rsel_selector, func_string, new_func. cbn [f_name f_args]. rewrite U. reflexivity.
  - intros [_ U]. unfold sel_text, rsel_selector, func_string, new_func. cbn [f_name f_args]. rewrite U. reflexivity.
  - intros [[_ U] _]. rewrite !glue_cons', glue_app, glue_listed, (map_ext _ _ farg_glue).
    unfold sel_text, rsel_selector, func_string, new_func. cbn [f_name f_args]. rewrite U. reflexivity.
Qed.
Lemma shown_farg a : farg_ok a -> shown (farg_piece a) = farg_toks a.
Proof. destruct a as [[] y]; intro Y; [reflexivity|apply shown_name; exact Y]. Qed.
Lemma shown_rsel s : rsel_ok s -> shown (rsel_pieces s) = rsel_toks s.
Proof.
  destruct s as [|c|f|f|f a args]; cbn [rsel_ok rsel_pieces].
  - reflexivity.
  - intro C. apply shown_name. exact C.
  - intros [F _]. change [PWord f; lp; star_; rp] with ([PWord f] ++ [lp; star_; rp]). rewrite shown_app, (shown_name f F). reflexivity.
  - intros [F _]. change [PWord f; lp; rp] with ([PWord f] ++ [lp; rp]). rewrite shown_app, (shown_name f F). reflexivity.
  - intros [[F _] A]. inversion A as [|? ? A0 As]; subst.
    change (PWord f :: lp :: (farg_piece a ++ listed farg_piece args) ++ [rp]) with ([PWord f] ++ [lp] ++ (farg_piece a ++ listed farg_piece args) ++ [rp]).
    rewrite !shown_app, (shown_name f F), (shown_farg a A0), shown_listed, (clist_ext _ farg_toks args (fun x I => shown_farg x (proj1 (Forall_forall _ _) As x I))).
    cbn [rsel_toks]. rewrite <- app_assoc. reflexivity.
Qed.

Definition core_follow : list string := ["UNION_"; "INTERSECT_"; "EXCEPT_"; "ORDER_"; "LIMIT_"] ++ stmt_follow.
Definition result_follow : list string := ["FROM_"; "WHERE_"; "GROUP_"; "WINDOW_"] ++ core_follow.
Lemma farg_reads a bot : reads (Rule "expr" 0) (farg_toks a) (fargc a) bot ["COMMA"; "CLOSE_PAR"]%string.
Proof.
  intros k K [|[kd tx] tl] r T H; [contradiction|]. cbn [heads tk] in T. cbn [In] in T. destruct a as [[] y]; unfold farg_toks, operand_tok; cbn [fst snd app]; enter;
    each_kind T; go_known none 1 AtEnd; exact H.
Qed.
Lemma rsel_reads s : reads (Rule "result_column" 0) (rsel_toks s) (rselc s) (Some ("COMMA"%string :: result_follow)) ["COMMA"; "FROM_"]%string.
Proof.
  intros k K tl r T H. destruct s as [|c|f|f|f a args]; cbn [rsel_toks app];
    [destruct tl as [|[kd tx] tl]; [contradiction|]; cbn [heads tk In] in T; enter; each_kind T; go_known (Some ("COMMA"%string :: result_follow)) 1 AtEnd; exact H..|].
  rewrite <- !app_assoc. cbn [app]. enter.
  assert (E : exists kd tx, farg_toks a = [mkTok kd tx] /\ (kd = "NUMERIC_LITERAL" \/ kd = "IDENTIFIER")%string) by (destruct a as [[] y]; eexists _, _; split; [reflexivity|tauto|reflexivity|tauto]).
  destruct E as (kd & tx & E & [-> | ->]); rewrite E; cbn [app]; go_known (Some ("COMMA"%string :: result_follow)) 1 (AtRule "expr");
  (match goal with |- denm _ _ (?t :: ?l) _ = _ => change (t :: l) with ([t] ++ l) end; rewrite <- E;
   by_reads (farg_reads a None); [apply heads_clist; left; reflexivity|];
   go (Some ("COMMA"%string :: result_follow)) (@nil token) 0 AtStar;
   by_reads (list_reads_any (Rule "expr" 0) farg_toks fargc None ["CLOSE_PAR"]%string args eq_refl ltac:(not_in) (fun x Ix => farg_reads x None)); [left; reflexivity|];
   destruct tl as [|[kd tx0] tl]; [contradiction|]; cbn [heads tk In] in T; each_kind T; go_known (Some ("COMMA"%string :: result_follow)) 1 AtEnd;
   unfold rselc, rsel_tree, fn_tree in H; rewrite <- app_assoc in H; refine (machine_end _ _ _ _ _ _ H); subst; rewrite !app_nil_r, <- !app_assoc; reflexivity).
Qed.

Lemma v_rsel s : rsel_ok s -> v_selector (rsel_tree s) = Ok (rsel_selector s).
Proof.
  destruct s as [|c|f|f|f a args]; intro O.
  - reflexivity.
  - unfold v_selector. assert (sub "expr" (rsel_tree (RCol c)) = Some (Node "expr" (col c))) as -> by reflexivity.
    assert (sub "function" (Node "expr" (col c)) = None) as -> by reflexivity.
    unfold rsel_tree, col. rewrite !text_one, text_ident. reflexivity.
  - unfold v_selector. cbn -[new_func append]. rewrite !append_nil_r. reflexivity.
  - unfold v_selector. cbn -[new_func append]. rewrite !append_nil_r. reflexivity.
  - unfold v_selector.
    assert (sub "expr" (rsel_tree (RFn f a args)) = Some (fn_tree f (fargc a ++ ctree fargc args))) as -> by reflexivity.
    set (fn := Node "function" ((""%string, Node "function_name" (ident f)) :: (""%string, Leaf open_) :: (fargc a ++ ctree fargc args) ++ [(""%string, Leaf close_)])).
    assert (sub "function" (fn_tree f (fargc a ++ ctree fargc args)) = Some fn) as -> by reflexivity.
    assert (sub "function_name" fn = Some (Node "function_name" (ident f))) as -> by reflexivity.
    unfold text_of. cbn [need rbind]. rewrite text_ident.
    assert (has_tok "STAR" fn = false) as ->.
    { change (tokened "STAR" ([(""%string, Node "function_name" (ident f)); (""%string, Leaf open_)] ++ (fargc a ++ ctree fargc args) ++ [(""%string, Leaf close_)]) = false).
      rewrite !tokened_app. assert (tokened "STAR" (ctree fargc args) = false) as -> by (clear; induction args as [|x args IH]; [reflexivity|exact IH]). reflexivity. }
    unfold fn. rewrite subs_node. rewrite !named_cons, !named_app, named_ctree. cbn [is_rule String.eqb Ascii.eqb Bool.eqb ident app].
    change (fun x => named "expr" (fargc x)) with (fun x => [farg_tree x]). rewrite flat_map_one.
    change ((named "expr" (fargc a) ++ map farg_tree args) ++ named "expr" [(""%string, Leaf close_)]) with (map farg_tree (a :: args) ++ []). rewrite app_nil_r, map_map.
    unfold rsel_selector. do 3 f_equal. apply map_ext. intros [[] y]; unfold farg_tree; cbn [fst snd]; rewrite text_one; [unfold lit_tree; cbn [lit_toks leafs map]; rewrite !text_one; reflexivity|apply text_ident].
Qed.

(** ** Tables *)

(** what follows the tables: the next two tokens *)
Definition pairs : list (string * string) := [("WHERE_", "IDENTIFIER"); ("ORDER_", "BY_"); ("LIMIT_", "NUMERIC_LITERAL"); ("GROUP_", "BY_")].
Definition after_from (tl : list token) : Prop :=
  (exists a l, tl = a :: l /\ In (tk a) stmt_ends) \/ (exists a b l, tl = a :: b :: l /\ In (tk a, tk b) pairs).
Definition readsp (g : gram) (ts : list token) (cs : children) (bot : option (list string)) (P : list token -> Prop) : Prop :=
  forall k, law bot k -> forall tl r, P tl -> k cs tl = Found r -> R g (ts ++ tl) k = Found r.
Lemma list_readsp {A} g (f : A -> list token) (c : A -> children) bot (P : list token -> Prop) xs :
  okg (commas g) = true -> (forall t tl, P (t :: tl) -> tk t <> "COMMA"%string) -> ~ P [] ->
  (forall x, In x xs -> readsp g (f x) (c x) (option_map (cons "COMMA"%string) bot) (fun tl => heads ["COMMA"%string] tl \/ P tl)) ->
  readsp (commas g) (clist f xs) (ctree c xs) bot P.
Proof.
  intros O NC NN. induction xs as [|x xs IH]; intros Hx k K tl r T H.
  - cbn [clist ctree flat_map app] in *. unfold commas. rewrite R_star by exact O. destruct (okg_star _ O) as [O1 _].
    rewrite R_seq by exact O1. rewrite R_tok. destruct tl as [|t rest]; [contradiction|].
    destruct (String.eqb (tk t) "COMMA") eqn:E; [apply String.eqb_eq in E; destruct (NC t rest T E)|].
    exact H.
  - cbn [clist flat_map app]. unfold commas. rewrite R_star by exact O. destruct (okg_star _ O) as [O1 _].
    rewrite R_seq by exact O1. rewrite R_tok. cbn [tk comma String.eqb Ascii.eqb Bool.eqb].
    assert (F : R g (f x ++ clist f xs ++ tl)
                  (fun cb r' => R (commas g) r' (fun cb' r'' => k ((((""%string, Leaf comma) :: nil) ++ cb) ++ cb') r'')) = Found r).
    { apply (Hx x (or_introl eq_refl)); [| |].
      - exact (law_star g bot (fun cb' r'' => k (((""%string, Leaf comma) :: nil) ++ cb') r'') O
                 ltac:(destruct bot; [intros cs t0 ts0 N0; apply K; exact N0|exact I])).
      - destruct xs as [|y ys]; [right; exact T|left; left; reflexivity].
      - refine (IH (fun y Hy => Hx y (or_intror Hy)) _ _ tl r T _).
        + destruct bot; [intros cs t0 ts0 N0; apply K; exact N0|exact I].
        + cbn [ctree flat_map] in H. rewrite <- app_assoc. exact H. }
    rewrite <- app_assoc. unfold commas in F. unfold clist in F. rewrite F. reflexivity.
Qed.

Definition from_follow : list string := ["WHERE_"; "GROUP_"; "WINDOW_"] ++ core_follow.
(** a table with a schema name or without *)
Inductive tref := TName (t : string) | TFull (s t : string).
Definition tref_table (t : tref) : table := match t with TName t => new_table t | TFull s t => mkTbl s (s ++ "." ++ t) end.
Definition tref_ok (t : tref) : Prop := match t with TName t => plain t | TFull s t => plain s /\ plain t end.
Definition tref_pieces (t : tref) : list piece := match t with TName t => [PWord t] | TFull s t => [PWord s; PSym "DOT" "."; PWord t] end.
Definition tref_toks (t : tref) : list token := match t with TName t => [idt t] | TFull s t => [idt s; mkTok "DOT" "."; idt t] end.
Definition tref_tree (t : tref) : children :=
  match t with TName t => tbl t | TFull s t => (""%string, Node "schema_name" (ident s)) :: (""%string, Leaf (mkTok "DOT" ".")) :: tbl t end.
Definition from_tree (t : tref) : tree := Node "from" [(""%string, Node "from_table" (tref_tree t))].
Definition fromc (t : tref) : children := [(""%string, from_tree t)].
Lemma from_reads t : readsp (Rule "from" 0) (tref_toks t) (fromc t) (Some ("COMMA"%string :: from_follow)) (fun tl => heads ["COMMA"%string] tl \/ after_from tl).
Proof.
  destruct t as [t|s t]; intros k K tl r [T|[T|T]] H; cbn [tref_toks].
  - destruct tl as [|[kd tx] tl]; [contradiction|]. cbn [heads tk In] in T. cbn [app]. enter. each_kind T. go_known (Some ("COMMA"%string :: from_follow)) 1 AtEnd. exact H.
  - destruct T as ([kd tx] & l & -> & T). unfold stmt_ends in T. cbn [tk In] in T. cbn [app]. enter. each_kind T; go_known (Some ("COMMA"%string :: from_follow)) 1 AtEnd; exact H.
  - destruct T as ([kd tx] & [kd' tx'] & l & -> & T). unfold pairs in T. cbn [tk In] in T. cbn [app]. enter.
    repeat (destruct T as [[= <- <-]|T]; [go_known (Some ("COMMA"%string :: from_follow)) 2 AtEnd; exact H|]). contradiction.
  - destruct tl as [|[kd tx] tl]; [contradiction|]. cbn [heads tk In] in T. cbn [app]. enter. each_kind T. go_known (Some ("COMMA"%string :: from_follow)) 1 AtEnd. exact H.
  - destruct T as ([kd tx] & l & -> & T). unfold stmt_ends in T. cbn [tk In] in T. cbn [app]. enter. each_kind T; go_known (Some ("COMMA"%string :: from_follow)) 1 AtEnd; exact H.
  - destruct T as ([kd tx] & [kd' tx'] & l & -> & T). unfold pairs in T. cbn [tk In] in T. cbn [app]. enter.
    repeat (destruct T as [[= <- <-]|T]; [go_known (Some ("COMMA"%string :: from_follow)) 2 AtEnd; exact H|]). contradiction.
Qed.
Lemma froms_reads ts : readsp (commas (Rule "from" 0)) (clist tref_toks ts) (ctree fromc ts) (Some from_follow) after_from.
Proof.
  apply list_readsp; [vm_compute; reflexivity| | |].
  - intros t tl [(a & l & [= <- <-] & I)|(a & b & l & [= <- ->] & I)] E; [rewrite E in I|rewrite E in I]; vm_compute in I; repeat destruct I as [I|I]; try discriminate I; contradiction.
  - intros [(a & l & E & _)|(a & b & l & E & _)]; discriminate E.
  - intros t _. apply from_reads.
Qed.

(** ** The core of a SELECT *)

Lemma law_in bot k s ks follow : law bot k -> forallb okf s = true -> (forall cs, firsts bot 2000 (MRet cs) s = Some ks) ->
  forallb (fun x => existsb (String.eqb x) follow) ks = true -> law (Some follow) (den k s).
Proof.
  intros K O F I. apply (law_weaken ks); [|exact (law_den bot 2000 s ks k K O F)].
  intros x X. rewrite forallb_forall in I. specialize (I x X). apply existsb_exists in I. destruct I as (y & Y & E). apply String.eqb_eq in E. subst y. exact Y.
Qed.
Ltac law_by K := eapply law_in; [exact K|vm_compute; reflexivity|intro; vm_compute; reflexivity|vm_compute; reflexivity].

(** what follows the core: the end, ORDER BY or LIMIT *)
Definition after_core (tl : list token) : Prop :=
  (exists a l, tl = a :: l /\ In (tk a) stmt_ends) \/
  (exists a b l, tl = a :: b :: l /\ In (tk a, tk b) [("ORDER_", "BY_"); ("LIMIT_", "NUMERIC_LITERAL")]%string).
Definition where_toks (w : option cond) : list token := match w with Some c => mkTok "WHERE_" "WHERE" :: cond_toks c | None => [] end.
Definition wherec (w : option cond) : children := match w with Some c => [(""%string, Leaf (mkTok "WHERE_" "WHERE")); ("whereExpr"%string, cond_tree c)] | None => [] end.
Definition group_toks (g : option string) : list token := match g with Some c => [mkTok "GROUP_" "GROUP"; mkTok "BY_" "BY"; idt c] | None => [] end.
Definition groupc (g : option string) : children :=
  match g with Some c => [(""%string, Leaf (mkTok "GROUP_" "GROUP")); (""%string, Leaf (mkTok "BY_" "BY")); ("groupByExpr"%string, Node "expr" (col c))] | None => [] end.
Definition core_toks (s : rsel) (ss : list rsel) (t : tref) (ts : list tref) (w : option cond) (g : option string) : list token :=
  mkTok "SELECT_" "SELECT" :: rsel_toks s ++ clist rsel_toks ss ++ mkTok "FROM_" "FROM" :: tref_toks t ++ clist tref_toks ts ++ where_toks w ++ group_toks g.
Definition core_tree (s : rsel) (ss : list rsel) (t : tref) (ts : list tref) (w : option cond) (g : option string) : tree :=
  Node "select_core" ((""%string, Leaf (mkTok "SELECT_" "SELECT")) :: rselc s ++ ctree rselc ss ++ (""%string, Leaf (mkTok "FROM_" "FROM")) :: fromc t ++ ctree fromc ts ++ wherec w ++ groupc g).

Definition core_ends : list string := ["SCOL"; "EOF"; "ORDER_"; "LIMIT_"].
Lemma after_core_heads tl : after_core tl -> heads core_ends tl.
Proof.
  intros [(a & l & -> & I)|(a & b & l & -> & I)]; cbn [heads].
  - unfold stmt_ends in I. cbn [In] in I. unfold core_ends. cbn [In]. tauto.
  - cbn [In] in I. unfold core_ends. cbn [In]. destruct I as [E|[E|[]]]; inversion E; tauto.
Qed.
Lemma cond_toks_start c : exists x l, cond_toks c = idt x :: l.
Proof. destruct c; eexists _, _; reflexivity. Qed.
Lemma after_core_from w g tl : after_core tl -> after_from (where_toks w ++ group_toks g ++ tl).
Proof.
  intro T. destruct w as [c|]; [|destruct g as [c|]; cbn [where_toks group_toks app]].
  - right. unfold where_toks. destruct (cond_toks_start c) as (x & l & ->). cbn [app]. eexists _, _, _. split; [reflexivity|]. vm_compute. tauto.
  - right. eexists _, _, _. split; [reflexivity|]. vm_compute. tauto.
  - destruct T as [T|(a & b & l & -> & I)]; [left; exact T|]. right. eexists _, _, _. split; [reflexivity|]. cbn [In] in I. destruct I as [<-|[<-|[]]]; vm_compute; tauto.
Qed.
Lemma tref_start t : exists x l, tref_toks t = idt x :: l.
Proof. destruct t; eexists _, _; reflexivity. Qed.
Lemma group_heads g tl : after_core tl -> heads where_ends (group_toks g ++ tl).
Proof.
  intro T. destruct g as [c|]; [vm_compute; tauto|]. apply (heads_incl core_ends); [in_list|apply after_core_heads; exact T].
Qed.

Lemma core_reads s ss t ts w g : match w with Some c => cond_ok c | None => True end ->
  readsp (Rule "select_core" 0) (core_toks s ss t ts w g) [(""%string, core_tree s ss t ts w g)] (Some core_follow) after_core.
Proof.
  intros W k K tl r T H. unfold core_toks. toks. enter.
  assert (E : denm k (MEval (Rule "result_column" 0)) (rsel_toks s ++ clist rsel_toks ss ++ mkTok "FROM_" "FROM" :: tref_toks t ++ clist tref_toks ts ++ where_toks w ++ group_toks g ++ tl)
    ltac:(match eval vm_compute in (exec (Some core_follow) (at_place 1 (AtRule "result_column")) 14 2000 5000 (MEval (Rule "select_core" 0)) [mkTok "SELECT_" "SELECT"; idt "x"] []) with
      | Some (_, _, ?s) => exact s end) = Found r).
  { by_reads (rsel_reads s); [law_by K|apply (heads_clist rsel_toks ["FROM_"%string]); left; reflexivity|].
    go (Some core_follow) (@nil token) 0 AtStar.
    by_reads (list_reads (Rule "result_column" 0) rsel_toks rselc (Some result_follow) ["FROM_"%string] ss eq_refl ltac:(not_in) (fun x _ => rsel_reads x)); [law_by K|left; reflexivity|].
    destruct (tref_start t) as (x0 & l0 & E0). rewrite E0. cbn [app]. go_known (Some core_follow) 1 (AtRule "from").
    match goal with |- denm _ _ (?a :: ?l ++ ?r) _ = _ => change (a :: l ++ r) with ((idt x0 :: l0) ++ r) end. rewrite <- E0.
    by_reads (from_reads t); [law_by K|destruct ts; [right; apply after_core_from; exact T|left; left; reflexivity]|].
    go (Some core_follow) (@nil token) 0 AtStar.
    by_reads (froms_reads ts); [law_by K|apply after_core_from; exact T|].
    pose proof (after_core_heads tl T) as T1. 
    destruct w as [c|].
    - unfold where_toks. cbn [app]. go_known (Some core_follow) 0 (AtRule "expr").
      by_reads (cond_reads c W); [law_by K|apply group_heads; exact T|].
      destruct tl as [|[kd tx] tl]; [contradiction|]; cbn [heads tk In core_ends] in T1.
      destruct g as [c0|]; unfold group_toks; cbn [app]; each_kind T1; go_known (Some core_follow) 1 AtEnd;
        (unfold core_tree, where_toks, group_toks, wherec, groupc in H; the_end H).
    - destruct tl as [|[kd tx] tl]; [contradiction|]; cbn [heads tk In core_ends] in T1.
      destruct g as [c0|]; unfold group_toks, where_toks; cbn [app]; each_kind T1; go_known (Some core_follow) 1 AtEnd;
        (unfold core_tree, where_toks, group_toks, wherec, groupc in H; the_end H).
  }
  assert (S0 : exists kd tx l, rsel_toks s = mkTok kd tx :: l /\ In kd ["STAR"; "IDENTIFIER"]%string) by (destruct s; eexists _, _, _; (split; [reflexivity|cbn [In]; tauto])).
  destruct S0 as (kd & tx & l & S0 & S1). rewrite S0 in E |- *. cbn [app] in *. cbn [In] in S1.
  each_kind S1; (match goal with |- denm _ _ (?a :: ?b :: _) _ = _ => go (Some core_follow) [a; b] 1 (AtRule "result_column") end; exact E).
Qed.
