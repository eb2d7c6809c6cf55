(** Reading back printed statements: all of them. *)
From Coq Require Import Lia Permutation.
From Verif Require Import GoBase ModelUtil ModelNum ModelFn ModelQuery ModelEbnf ModelGrammar ModelLex ModelVisitor
  SpecFn SpecQuery SpecParse SpecRound FactsBase ProofEbnf ProofMachine ProofFn ProofNum ProofQuery ProofParse ProofLex ProofRound ProofRound2 ProofRound3
  ProofRound4 ProofRound5 ProofRound6 ProofRound7 ProofRound8 ProofRound9 ProofRound10 ProofRound11.

Lemma as_map {A B} (f : A -> B) (P : B -> Prop) (Q : A -> Prop) l :
  (forall b, P b -> exists a, b = f a /\ Q a) -> Forall P l -> exists l', l = map f l' /\ Forall Q l'.
Proof.
  intros H F. induction F as [|b l Pb _ (l' & -> & IH)]; [exists []; split; [reflexivity|constructor]|].
  destruct (H b Pb) as (a & -> & Qa). exists (a :: l'). split; [reflexivity|constructor; assumption].
Qed.
Lemma as_map_some {A B} (f : A -> B) (P : B -> Prop) (Q : A -> Prop) l :
  (forall b, P b -> exists a, b = f a /\ Q a) -> some P l -> exists a l', l = map f (a :: l') /\ Q a /\ Forall Q l'.
Proof.
  intros H [N F]. destruct (as_map f P Q l H F) as ([|a l'] & -> & G); [destruct N; reflexivity|]. inversion G; subst. exists a, l'. auto.
Qed.
Lemma list_some (P Q : string -> Prop) l : (forall x, P x -> Q x) -> some P l -> exists c cs, l = c :: cs /\ Q c /\ Forall Q cs.
Proof.
  intros H S. destruct (as_map_some (fun x => x) P Q l (fun b Pb => ex_intro _ b (conj eq_refl (H b Pb))) S) as (c & cs & -> & C & Cs).
  exists c, cs. rewrite map_id. auto.
Qed.
Lemma names_some l : some any_name l -> exists c cs, l = c :: cs /\ plain c /\ Forall plain cs.
Proof. apply list_some. exact any_is. Qed.
Lemma bares_some l : some bare_name l -> exists c cs, l = c :: cs /\ bare c /\ Forall bare cs.
Proof. apply list_some. exact bare_is. Qed.
Lemma or_bare s : (s = ""%string \/ bare_name s) -> s = ""%string \/ bare s.
Proof. intros [H|H]; [left; exact H|right; exact (bare_is s H)]. Qed.
Lemma full_as s t : full_ok s t -> full s t.
Proof. intros [x X|q x Q X D]; (split; [apply any_is, X|]); [left; reflexivity|right]. split; [apply bare_is, Q|exact D]. Qed.
Lemma bare_table_as t : bare_table_ok t -> exists x, t = new_table x /\ bare x.
Proof. intros [x N]. exists x. split; [reflexivity|exact (bare_is x N)]. Qed.
Lemma copy_target_as t : copy_target_ok t -> (exists x, t = new_table x /\ solid x) \/ (exists q x, t = new_table (q ++ "." ++ x)%string /\ solid q /\ solid x).
Proof.
  intros [x N|q x Q N]; [left; exists x; split; [reflexivity|exact (name_solid x N)]|].
  right. exists q, x. split; [reflexivity|]. split; apply name_solid; assumption.
Qed.
Lemma table_as t : table_ok t -> exists x, t = new_table x /\ plain x.
Proof. intros [x N]. exists x. split; [reflexivity|exact (any_is x N)]. Qed.
Lemma from_as t : from_ok t -> exists x, t = tref_table x /\ tref_ok x.
Proof.
  intros [x N|q x Q N]; [exists (TName x)|exists (TFull q x)]; (split; [reflexivity|]); [exact (any_is x N)|].
  split; apply any_is; assumption.
Qed.
Lemma target_as t : target_ok t -> (exists x, t = new_table x /\ plain x) \/ (exists q x, t = new_table (q ++ "." ++ x)%string /\ plain q /\ plain x).
Proof.
  intros [x N|q x Q N]; [left; exists x; split; [reflexivity|exact (any_is x N)]|].
  right. exists q, x. split; [reflexivity|]. split; apply any_is; assumption.
Qed.
Lemma name_column_as c : name_column_ok c -> exists x, c = new_column x /\ solid x.
Proof. intros [x N]. exists x. split; [reflexivity|exact (name_solid x N)]. Qed.
Lemma definition_as c : definition_ok c -> exists d, c = cdef_column d /\ cdef_bare d.
Proof. intros [x t l N T L]. exists (mkCdef x t l). split; [reflexivity|]. split; [exact (bare_is x N)|]. split; assumption. Qed.
Lemma primary_as i : primary_ok i -> exists p, i = pk_index p /\ pk_bare p.
Proof. intros [names S]. destruct (bares_some names S) as (c & cs & -> & C & Cs). exists (c, cs). split; [reflexivity|split; assumption]. Qed.
Lemma set_as c : set_ok c -> exists u, c = uset_column u /\ uset_ok u.
Proof.
  intros [x l N L|x e a b N E A B|x e a b N E A B].
  - exists (UVal x l). split; [reflexivity|]. split; [exact (any_is x N)|exact L].
  - exists (UAr x e a false b). split; [reflexivity|]. repeat split; try (apply any_is; assumption). exact E.
  - exists (UAr x e a true b). split; [reflexivity|]. split; [exact (any_is x N)|]. split; [exact E|]. split; [exact (any_is a A)|exact (number_is b B)].
Qed.
Lemma farg_as a : any_name a \/ number a -> exists x : farg, a = snd x /\ farg_ok x.
Proof. intros [H|H]; [exists (false, a)|exists (true, a)]; (split; [reflexivity|]); [exact (any_is a H)|exact (number_is a H)]. Qed.
Lemma selector_as s : selector_ok s -> exists r, s = rsel_selector r /\ rsel_ok r.
Proof.
  intros [|c N|f N U|f args N U A].
  - exists RAll. split; [reflexivity|exact I].
  - exists (RCol c). split; [reflexivity|exact (any_is c N)].
  - exists (RFnAll f). split; [reflexivity|split; [exact (any_is f N)|exact U]].
  - destruct (as_map snd _ farg_ok args farg_as A) as ([|a l] & -> & F).
    + exists (RFnNone f). split; [reflexivity|split; [exact (any_is f N)|exact U]].
    + exists (RFn f a l). split; [reflexivity|]. split; [split; [exact (any_is f N)|exact U]|exact F].
Qed.
Lemma order_as o : order_ok o -> exists x, o = oi_order x /\ plain (fst x).
Proof.
  intros [c t N T]. destruct t; [destruct T; reflexivity| |].
  - exists (c, false). split; [reflexivity|exact (any_is c N)].
  - exists (c, true). split; [reflexivity|exact (any_is c N)].
Qed.
Lemma limit_as l : limit_ok l -> exists x, l = lim_limit_of x /\ lim_ok x.
Proof.
  intros [->|[A B]]; [exists NoLimit; split; [reflexivity|exact I]|]. destruct l as [o n]. cbn [lim_limit lim_offset] in *.
  destruct (N.eq_dec o 0) as [->|E].
  - exists (Limit n). split; [reflexivity|exact A].
  - exists (LimitOffset n o). split; [reflexivity|]. split; [exact A|lia].
Qed.
Lemma value_column_as c : value_column_ok c -> exists x l, c = new_value_column x l /\ plain x /\ literal_ok l.
Proof. intros [x l N L]. exists x, l. split; [reflexivity|]. split; [exact (any_is x N)|exact L]. Qed.
Lemma row_as names r : Forall value_column_ok r -> map c_name r = names -> exists vs, r = pair_row names vs /\ Forall literal_ok vs /\ length vs = length names.
Proof.
  intros F <-. induction F as [|c r C _ (vs & E & L & N)]; [exists []; repeat split; constructor|].
  destruct (value_column_as c C) as (x & l & -> & X & Lx). exists (l :: vs). split; [|split].
  - cbn [map c_name new_value_column]. unfold pair_row in *. cbn [combine map fst snd]. rewrite <- E. reflexivity.
  - constructor; assumption.
  - cbn [length map]. rewrite N. reflexivity.
Qed.

Theorem supported_back entries s : Permutation entries data_type_strings -> supported s -> comes_back entries s.
Proof.
  intros P S. destruct S.
  - apply create_database_back. apply any_is. assumption.
  - destruct (as_map_some _ _ _ cols definition_as H0) as (d & ds & -> & D & Ds). destruct (as_map _ _ _ idxs primary_as H1) as (ps & -> & Ps).
    apply create_table_back; try assumption. apply bare_is. assumption.
  - destruct H0 as (n & names & -> & N & Ns). destruct (bares_some names Ns) as (c & cs & -> & C & Cs).
    apply create_index_back; try assumption; apply bare_is; assumption.
  - apply drop_database_back. apply any_is. assumption.
  - destruct (as_map_some _ _ _ ts bare_table_as H) as (t & l & -> & T & L). apply drop_table_back; assumption.
  - apply drop_index_back; [apply or_bare; assumption|apply bare_is; assumption].
  - apply alter_database_back; apply any_is; assumption.
  - destruct H.
    + apply alter_rename_back; [apply full_as; assumption|apply bare_is; assumption].
    + apply alter_rename_column_back; [apply full_as; assumption|apply any_is; assumption..].
    + destruct (definition_as c H0) as (d & -> & D). apply alter_add_column_back; [assumption|apply full_as; assumption|exact D].
    + destruct H0 as (n & names & -> & N & Ns). destruct (bares_some names Ns) as (c & cs & -> & C & Cs).
      apply alter_add_index_back; [apply full_as; assumption|apply bare_is; assumption|exact C|exact Cs].
    + destruct (bares_some names H0) as (c & cs & -> & C & Cs). apply alter_add_primary_back; [apply full_as; assumption|assumption..].
  - destruct (bare_table_as t H) as (x & -> & X). destruct H0 as (names & Ns & R). destruct (names_some names Ns) as (c & cs & -> & C & Cs).
    destruct (as_map_some (fun v : vals => pair_row (c :: cs) (fst v :: snd v)) (fun r => Forall value_column_ok r /\ map c_name r = c :: cs) (fun v => vals_ok v /\ length (snd v) = length cs) rows) with (2 := R) as (v & vs & -> & V & Vs).
    { intros r [F E]. destruct (row_as _ r F E) as ([|l ls] & -> & L & N); [discriminate|]. exists (l, ls). split; [reflexivity|].
      inversion L; subst. split; [split; assumption|]. cbn [length snd] in *. congruence. }
    apply insert_back; try assumption. constructor; assumption.
  - destruct (as_map_some _ _ _ sets set_as H0) as (u & us & -> & U & Us).
    destruct (target_as t H) as [(x & -> & X)|(q & x & -> & Q & X)]; [apply update_back|apply update_full_back]; try assumption; constructor; assumption.
  - destruct s as [tables sels w orders lim g]. destruct H as [H1 H2 H3 H4 H5 H6]. cbn [sel_tables sel_selectors sel_where sel_order_by sel_limit sel_group_by] in *.
    destruct (as_map_some _ _ _ tables from_as H1) as (t & ts & -> & T & Ts). destruct (as_map_some _ _ _ sels selector_as H2) as (r & rs & -> & R & Rs).
    destruct (as_map _ _ _ orders order_as H4) as (os & -> & Os). destruct (limit_as lim H5) as (l & -> & L).
    assert (F : Forall rsel_ok (r :: rs)) by (constructor; assumption).
    destruct H6 as [->|(G & E & El)].
    + exact (select_back entries r rs t ts w os l None T Ts F H3 Os L I).
    + apply (select_back entries r rs t ts w os l (Some g) T Ts F H3 Os L). split; [exact (any_is g G)|].
      split; [destruct os; [reflexivity|discriminate E]|]. destruct l as [|n|n m]; [reflexivity| |]; exfalso; unfold lim_limit_of in El; inversion El; subst; cbn [lim_ok] in L; lia.
  - destruct (target_as t H) as [(x & -> & X)|(q & x & -> & Q & X)]; [apply delete_back|apply delete_full_back]; assumption.
  - apply commit_back.
  - apply begin_back.
  - apply rollback_back.
  - apply use_back. apply any_is. assumption.
  - destruct (as_map _ _ _ cols name_column_as H0) as (cs & -> & Cs).
    destruct (copy_target_as t H) as [(x & -> & X)|(q & x & -> & Q & X)]; [apply copy_back|apply copy_full_back]; try assumption; apply name_solid; assumption.
  - destruct (as_map_some _ _ _ ts table_as H) as (t & l & -> & T & L). apply truncate_back; assumption.
  - apply vacuum_all_back.
  - destruct (table_as t H) as (x & -> & X). apply vacuum_back. exact X.
Qed.
