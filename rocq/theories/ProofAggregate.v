(** Proofs about aggregated result sets and result schemas. *)
From Verif Require Import GoBase ModelResultSet ModelAggr ModelFn ModelQuery ModelAggregate SpecResultSet SpecAggr SpecAggregate
  FactsBase ProofResultSet ProofAggr ProofAggr2.

Section Agg.
  Context {V : Type} (to_float : V -> option float) (to_str : option V -> option string)
          (compare : option V -> option V -> option comparison) (num : float -> V)
          (iter : list (string * list float) -> list string)
          (mem : nat -> list (option V))
          (sort : (string -> string -> bool) -> list string -> list string)
          (execute : exe -> list string -> object V -> result (option V)).
  Notation set_aggregate_map := (set_aggregate_map to_float to_str).
  Notation aggregate_source := (aggregate_source to_float to_str).
  Notation number_in := (number_in to_float).
  Local Notation keys_t := (list (string * (nat * nat))).

  (** An ungrouped aggregator of one argument that has seen the numbers [xs]. *)
  Definition one (p : kind * string * keys_t) (xs : list float) : aggr :=
    let '(k, a, keys) := p in
    mkAggr k [a] [aggregate_name k a] [fold_left (agg_value k) xs (reset_value k)] (length xs) [] keys [] [].

  Lemma one_map p xs (m : object V) :
    aggregate_map to_float to_str (one p xs) 0 m =
    match number_in (snd (fst p)) (Ok m) with
    | Ok x => (one p (xs ++ [x]), Ok tt)
    | Err e => (one p xs, Err e)
    | Panic => (one p xs, Panic)
    end.
  Proof.
    destruct p as [[k a] keys]. unfold SpecAggregate.number_in, aggregate_map. cbn [one a_args map_cells fst snd rbind].
    assert (St : forall c x, cell_float to_float c = Some x ->
      aggregate_row to_float to_str (one (k, a, keys) xs) (mkFrow 0 [c]) = (one (k, a, keys) (xs ++ [x]), Ok tt)).
    { intros c x E. unfold aggregate_row, one. cbn [a_columns fr_cells length Nat.eqb negb is_grouping a_groups].
      unfold is_grouping. cbn [a_groups length Nat.eqb negb a_kind a_aggrs agg_cells]. rewrite E.
      cbn. rewrite app_length, fold_left_app. cbn. rewrite Nat.add_1_r. reflexivity. }
    destruct (String.eqb a "*"); [cbn [rbind]; now apply St|].
    destruct (mget String.eqb a m) as [[v|]|]; cbn [rbind]; auto; [|now apply St].
    destruct (to_float v) eqn:E; [now apply St|].
    unfold aggregate_row, one. cbn. now rewrite E.
  Qed.

  (** the members of a set, every member with its numbers *)
  Definition ones (ps : list (kind * string * keys_t)) (xss : list (list float)) : list aggr :=
    map (fun q => one (fst q) (snd q)) (combine ps xss).
  Definition snocs (xss : list (list float)) (xs : list float) : list (list float) :=
    map (fun q => fst q ++ [snd q]) (combine xss xs).

  Lemma ones_map m ps : forall xss, length xss = length ps ->
    match all_ok (map (fun p => number_in (snd (fst p)) (Ok m)) ps) with
    | Ok xs => length xs = length ps /\ set_aggregate_map (ones ps xss) m = (ones ps (snocs xss xs), Ok tt)
    | Err e => snd (set_aggregate_map (ones ps xss) m) = Err e
    | Panic => snd (set_aggregate_map (ones ps xss) m) = Panic
    end.
  Proof.
    induction ps as [|p ps IH]; intros [|ys xss] L; try discriminate.
    - cbn. auto.
    - specialize (IH xss ltac:(cbn in L; lia)).
      change (ones (p :: ps) (ys :: xss)) with (one p ys :: ones ps xss).
      cbn [map all_ok ModelAggregate.set_aggregate_map]. pose proof (one_map p ys m) as O. revert O.
      destruct (number_in (snd (fst p)) (Ok m)) as [x|e|]; intros ->; cbn [rbind]; auto.
      destruct (all_ok _) as [xs|e|]; cbn [rbind].
      + destruct IH as (Lx & IH). rewrite IH. split; [cbn; lia|]. reflexivity.
      + destruct (set_aggregate_map (ones ps xss) m). cbn in *. auto.
      + destruct (set_aggregate_map (ones ps xss) m). cbn in *. auto.
  Qed.

  (** the loop over the source, as a fold over what the loop of Next and Row sees *)
  Fixpoint fold_source {R} (row : R -> result (object V)) (l : list (result R)) (ms : list aggr)
    : list aggr * result unit :=
    match l with
    | [] => (ms, Ok tt)
    | r :: l' =>
        match rbind r row with
        | Ok m => match set_aggregate_map ms m with
                  | (ms', Ok _) => fold_source row l' ms'
                  | (ms', e) => (ms', e)
                  end
        | Err e => (ms, Err e)
        | Panic => (ms, Panic)
        end
    end.
  Lemma source_fold {R} (row : R -> result (object V)) fuel : forall (src : rset R) l ms,
    rs_loop fuel src = Some l -> aggregate_source row fuel src ms = Some (fold_source row l ms).
  Proof.
    induction fuel as [|fuel IH]; intros src l ms E; [discriminate|]. cbn [rs_loop ModelAggregate.aggregate_source] in *.
    destruct (rs_next src) as [src' more]. destruct more; [|now inversion E].
    destruct (rs_loop fuel src') as [l'|] eqn:E'; [|discriminate]. inversion E; subst.
    cbn [fold_source]. unfold rs_row. destruct (rbind (rs_current src') row) as [m|e|]; auto.
    destruct (set_aggregate_map ms m) as [ms' [u|e|]]; auto.
  Qed.
  Lemma unread_loop {R} (src : rset R) fuel : unread src -> length (rows_in src) < fuel ->
    rs_loop fuel src = Some (map Ok (rows_in src)).
  Proof.
    intros (C & B1 & B2) F. destruct src as [rows c off lim]. cbn [rs_cursor rs_offset rs_limit rs_rows] in *.
    subst c. unfold rows_in in *. cbn [rs_rows rs_offset rs_limit] in *.
    apply (loop_spec rows off lim 0 fuel); auto; lia.
  Qed.

  Lemma snocs_length xss xs : length xs = length xss -> length (snocs xss xs) = length xss.
  Proof. intros L. unfold snocs. rewrite map_length, combine_length. lia. Qed.

  (** the numbers of every member: one list per member, one number per row *)
  Definition columns_of_rows (n : nat) (rows : list (list float)) : list (list float) :=
    fold_left snocs rows (repeat [] n).

  Lemma fold_ones {R} (row : R -> result (object V)) ps rows : ps <> [] -> forall xss, length xss = length ps ->
    match all_ok (map (fun r => all_ok (map (fun p => number_in (snd (fst p)) (row r)) ps)) rows) with
    | Ok yss => Forall (fun ys => length ys = length ps) yss /\
        fold_source row (map Ok rows) (ones ps xss) = (ones ps (fold_left snocs yss xss), Ok tt)
    | Err e => snd (fold_source row (map Ok rows) (ones ps xss)) = Err e
    | Panic => snd (fold_source row (map Ok rows) (ones ps xss)) = Panic
    end.
  Proof.
    intros N. induction rows as [|r rows IH]; intros xss L.
    - cbn. auto.
    - cbn [map all_ok fold_source rbind]. destruct (row r) as [m|e|] eqn:Er.
      + pose proof (ones_map m ps xss L) as O.
        destruct (all_ok (map (fun p => number_in (snd (fst p)) (Ok m)) ps)) as [xs|e|]; cbn [rbind].
        * destruct O as (Lx & O). rewrite O.
          specialize (IH (snocs xss xs) ltac:(rewrite snocs_length; congruence)).
          destruct (all_ok _) as [yss|e|]; cbn [rbind]; auto. destruct IH as (F & IH). split; [constructor; auto|exact IH].
        * destruct (set_aggregate_map _ m) as [ms' x]. cbn in *. now subst.
        * destruct (set_aggregate_map _ m) as [ms' x]. cbn in *. now subst.
      + destruct ps as [|p ps]; [now destruct N|]. cbn. auto.
      + destruct ps as [|p ps]; [now destruct N|]. cbn. auto.
  Qed.

  (** the first member's numbers *)
  Lemma fold_snocs_head yss : forall (xs : list float) xss, Forall (fun ys => length ys = S (length xss)) yss ->
    exists rest, length rest = length xss /\
      fold_left snocs yss (xs :: xss) = (xs ++ map (fun ys => hd fzero ys) yss) :: rest.
  Proof.
    induction yss as [|ys yss IH]; intros xs xss F; cbn [fold_left map].
    - exists xss. now rewrite app_nil_r.
    - inversion F as [|? ? L F']; subst. destruct ys as [|y ys]; [discriminate|]. cbn in L.
      assert (Ls : length (snocs xss ys) = length xss) by (apply snocs_length; lia).
      destruct (IH (xs ++ [y]) (snocs xss ys)) as (rest & Lr & E).
      { rewrite Ls. exact F'. }
      exists rest. split; [congruence|]. change (snocs (xs :: xss) (y :: ys)) with ((xs ++ [y]) :: snocs xss ys).
      rewrite E. cbn [hd]. now rewrite <- app_assoc.
  Qed.

  (** finalizing *)
  Lemma one_finalize p xs it : finalize compare mem ModelAggr.OrderNone sort it (one p xs) =
    Ok (new_fn_rset [aggregate_name (fst (fst p)) (snd (fst p))] [[num_cell (aggregate_of (fst (fst p)) xs)]]).
  Proof.
    destruct p as [[k a] keys]. unfold finalize, is_grouping, one. cbn. now rewrite final_fold.
  Qed.
  Lemma ones_finalize ps : forall xss, length xss = length ps ->
    finalize_all compare mem sort (map (fun m => (m, iter (a_gaggrs m))) (ones ps xss)) =
    Ok (map (fun q => new_fn_rset [aggregate_name (fst (fst (fst q))) (snd (fst (fst q)))]
                        [[num_cell (aggregate_of (fst (fst (fst q))) (snd q))]]) (combine ps xss)).
  Proof.
    induction ps as [|p ps IH]; intros [|xs xss] L; try discriminate; [reflexivity|].
    change (ones (p :: ps) (xs :: xss)) with (one p xs :: ones ps xss).
    cbn [map finalize_all]. rewrite one_finalize. cbn [rbind]. rewrite IH by (cbn in L; lia). reflexivity.
  Qed.
  Lemma merge_one_columns {A} (f : A -> string) l : forall cols,
    merge_columns cols (map (fun q => [f q]) l) = Ok cols.
  Proof. induction l as [|x l IH]; intros cols; cbn; auto. rewrite app_nil_r. apply IH. Qed.
  Lemma merge_one_rows {A B} (f : A -> B) l : forall row, 
    merge_rows [row] (map (fun q => [[f q]]) l) = Ok [row ++ map f l].
  Proof.
    induction l as [|x l IH]; intros row; cbn; [now rewrite app_nil_r|]. rewrite IH. now rewrite <- app_assoc.
  Qed.
  Lemma set_finalize_ones p ps xs xss : length xss = length ps ->
    exists cells, aggr_set_finalize compare mem sort (map (fun m => (m, iter (a_gaggrs m))) (ones (p :: ps) (xs :: xss))) =
      Ok (new_fn_rset [aggregate_name (fst (fst p)) (snd (fst p))]
            [num_cell (aggregate_of (fst (fst p)) xs) :: cells]).
  Proof.
    intros L. unfold aggr_set_finalize. rewrite ones_finalize by (cbn; lia). cbn [rbind combine map set_finalize].
    rewrite !map_map. cbn [new_fn_rset fr_columns fr_rows fst snd].
    rewrite (merge_one_columns (fun q => aggregate_name (fst (fst (fst q))) (snd (fst (fst q))))). cbn [rbind].
    rewrite (merge_one_rows (fun q => num_cell (aggregate_of (fst (fst (fst q))) (snd q)))). cbn [rbind].
    eexists. reflexivity.
  Qed.

  (** the selectors *)
  Lemma kind_not_registered k : new_aggregator_kind (kind_name k) = Ok k.
  Proof. destruct k; reflexivity. Qed.
  Lemma fresh_aggr k arg : new_aggr k [OptArgs [arg]] = Ok (one (k, arg, []) []).
  Proof. destruct k; reflexivity. Qed.
  Lemma call_type k arg : sel_with_type (call k arg) AggregateFunction = call k arg.
  Proof. destruct k; reflexivity. Qed.
  Lemma call_name k arg : sel_function (call k arg) = Some (new_func (kind_name k) [arg]) /\
    f_name (new_func (kind_name k) [arg]) = kind_name k /\ f_args (new_func (kind_name k) [arg]) = [arg] /\
    f_type (new_func (kind_name k) [arg]) = AggregateFunction.
  Proof. destruct k; repeat split. Qed.

  Lemma has_agg items : has_aggregator (map item_selector items) = negb (length (aggs items) =? 0).
  Proof.
    induction items as [|[n|k a] items IH]; auto. cbn [map aggs length Nat.eqb negb].
    unfold has_aggregator in *. cbn [has_function_with_type item_selector].
    destruct (call_name k a) as (E & _ & _ & T). rewrite E, T. reflexivity.
  Qed.

  (** a member about to be reset *)
  Definition member (group : option string) (q : kind * string) (a : aggr) : Prop :=
    a_kind a = fst q /\ a_args a = [snd q] /\ (group <> None \/ a_groups a = []).

  Lemma written_selectors group items l : written group items l -> map rl_sel l = map item_selector items.
  Proof. induction 1 as [|i s items l (E & _) _ IH]; cbn; auto. now rewrite E, IH. Qed.

  Lemma written_aggregators group items l : written group items l ->
    exists l1, sel_aggregators l = (l1, Ok tt) /\ written group items l1 /\
      Forall2 (member group) (aggs items) (members_of l1).
  Proof.
    induction 1 as [|i s items l (E & U) _ IH]; [exists []; repeat split; constructor|].
    destruct IH as (l1 & A & W & M). destruct s as [sel cached]. cbn [rl_sel rl_aggr] in *. subst sel.
    destruct i as [n|k arg]; cbn [item_selector sel_aggregators] in *.
    - unfold sel_aggregator. cbn [rl_sel plain sel_function new_column c_fn]. rewrite A.
      eexists. split; [reflexivity|]. split; [constructor; auto|]. exact M.
    - destruct (call_name k arg) as (F & Nm & Ar & _). unfold sel_aggregator. cbn [rl_sel rl_aggr]. rewrite F.
      destruct cached as [a|].
      + rewrite A. eexists. split; [reflexivity|]. split; [constructor; auto|].
        cbn [aggs members_of rl_sel rl_aggr]. rewrite F. constructor; auto.
      + rewrite Nm, kind_not_registered. cbn [rbind]. rewrite Ar, fresh_aggr, A, call_type.
        eexists. split; [reflexivity|]. split.
        * constructor; auto. cbn. auto.
        * cbn [aggs members_of rl_sel rl_aggr]. rewrite F. constructor; auto. repeat split. now right.
  Qed.

  Lemma member_reset group q a : ungrouped group -> member group q a ->
    exists keys, reset a (group_opts group) = (one (q, keys) [], Ok tt).
  Proof.
    intros U (K & A & G). destruct q as [k arg], a as [k0 args cols ag cnt groups keys ga gc].
    cbn [a_kind a_args a_groups fst snd] in *. subst k0 args. exists keys.
    destruct U as [-> | ->]; [|destruct k; reflexivity].
    destruct G as [G|G]; [now destruct G|]. subst groups. destruct k; reflexivity.
  Qed.
  Lemma members_reset group qs ms : ungrouped group -> Forall2 (member group) qs ms ->
    exists ps, map fst ps = qs /\ set_reset ms (group_opts group) = (ones ps (repeat [] (length ps)), Ok tt).
  Proof.
    intros U. induction 1 as [|q a qs ms M _ IH]; [exists []; auto|].
    destruct IH as (ps & E & R). destruct (member_reset group q a U M) as (keys & Ra).
    exists ((q, keys) :: ps). split; [cbn; now rewrite E|]. cbn [set_reset]. rewrite Ra, R. reflexivity.
  Qed.

  Lemma all_ok_ext {A B} (f g : A -> result B) l : (forall x, f x = g x) -> all_ok (map f l) = all_ok (map g l).
  Proof. intros H. now rewrite (map_ext _ _ H). Qed.

  Theorem aggregated_objects {R} base items l group db (row : R -> result (object V)) fuel src :
    written group items l -> aggs items <> [] -> ungrouped group -> unread src -> length (rows_in src) < fuel ->
    snd (aggregated_result_set to_float to_str compare num iter mem sort base l group (Some db) row fuel src) =
    match all_ok (map (fun r => all_ok (map (fun q => number_in (snd q) (row r)) (aggs items))) (rows_in src)) with
    | Ok yss =>
        let q := hd (SUM, "") (aggs items) in
        Some (Ok (NewSet (@new_rschema V (fun _ => Panic) [SoDatabase db; SoBase base; SoSelectors (map item_selector items)])
                 [[(aggregate_name (fst q) (snd q),
                    option_map num (aggregate_of (fst q) (map (fun ys => hd fzero ys) yss)))]]))
    | Err e => Some (Err e)
    | Panic => Some Panic
    end.
  Proof.
    intros W NE U UR F. unfold aggregated_result_set. rewrite (written_selectors _ _ _ W), has_agg.
    destruct (aggs items) as [|q qs] eqn:EA; [now destruct NE|]. cbn [length Nat.eqb negb].
    destruct (written_aggregators _ _ _ W) as (l1 & SA & _ & M). rewrite SA, EA in *.
    destruct (members_reset _ _ _ U M) as (ps & Eps & SR). rewrite SR.
    rewrite (source_fold _ _ _ _ _ (unread_loop src fuel UR F)).
    assert (Nps : ps <> []) by (destruct ps; discriminate).
    pose proof (fold_ones row ps (rows_in src) Nps (repeat [] (length ps)) (repeat_length _ _)) as FO.
    replace (all_ok (map (fun r => all_ok (map (fun q => number_in (snd q) (row r)) (q :: qs))) (rows_in src)))
      with (all_ok (map (fun r => all_ok (map (fun p => number_in (snd (fst p)) (row r)) ps)) (rows_in src))).
    2:{ apply all_ok_ext. intros r. rewrite <- Eps. rewrite map_map. reflexivity. }
    destruct (all_ok _) as [yss|e|].
    2,3: destruct (fold_source row _ _) as [ms' x]; cbn [snd] in FO; now subst.
    destruct FO as (FL & FO). rewrite FO. cbn [snd].
    destruct ps as [|p ps]; [now destruct Nps|]. cbn [length repeat] in *.
    destruct (fold_snocs_head yss [] (repeat [] (length ps))) as (rest & Lr & E).
    { rewrite repeat_length. exact FL. }
    rewrite E. rewrite repeat_length in Lr. cbn [app].
    destruct (set_finalize_ones p ps (map (fun ys => hd fzero ys) yss) rest Lr) as (cells & SF). rewrite SF.
    cbn [map] in Eps. injection Eps as Eq _. cbn [hd]. rewrite <- Eq.
    cbn [rbind new_fn_rset fr_rows fr_columns map length result_objects].
    unfold fr_next, fr_map, fr_row, new_map_with_row.
    cbn [new_fn_rset fr_rows fr_columns fr_index length Z.of_nat Z.leb Z.add].
    destruct (aggregate_of (fst (fst p)) _); reflexivity.
  Qed.

  (** *** the schema and what the caller sees *)
  Lemma items_columns base items hs : Forall2 (heading_of base) items hs ->
    exists cs, selector_columns base (map item_selector items) = Ok cs /\ map sc_name cs = hs /\
      Forall2 (fun i c => match i with
                          | Plain _ => sc_fn c = None
                          | Agg k a => sc_fn c = Some (new_func (kind_name k) [a])
                          end) items cs.
  Proof.
    induction 1 as [|i h items hs H _ IH]; [exists []; repeat split; constructor|].
    destruct IH as (cs & E & Eh & F). destruct i as [n|k a]; cbn [map selector_columns].
    - destruct H as (c & L & Fn & ->). exists (scol_of_column c :: cs).
      unfold selector_column at 1. cbn [item_selector plain sel_function new_column c_fn sel_name c_name].
      rewrite L. cbn [rbind]. rewrite E. cbn [rbind map]. split; [reflexivity|]. split; [now rewrite Eh|]. constructor; auto.
    - cbn in H. subst h. destruct (call_name k a) as (Ef & _ & _ & T).
      exists (mkScol (aggregate_name k a) FloatType 0%N (Some (new_func (kind_name k) [a])) :: cs).
      unfold selector_column at 1. cbn [item_selector]. rewrite Ef. unfold data_type_for_function. rewrite T.
      cbn [rbind]. rewrite E. cbn [rbind map]. split.
      + destruct k; reflexivity.
      + split; [now rewrite Eh|]. constructor; auto.
  Qed.

  Lemma call_executor k arg : rc_exec (rcolumn_of execute (mkScol "" FloatType 0%N (Some (new_func (kind_name k) [arg])))) = None.
  Proof. destruct k; reflexivity. Qed.
  Lemma rcolumn_exec c k arg : sc_fn c = Some (new_func (kind_name k) [arg]) -> rc_exec (rcolumn_of execute c) = None.
  Proof. intros E. unfold rcolumn_of. cbn [rc_exec]. rewrite E. destruct k; reflexivity. Qed.

  Lemma projected_values cols (o : object V) : NoDup (map sc_name cols) ->
    (forall c, In c cols -> rc_exec (rcolumn_of execute c) = None) ->
    exists r, new_row_from_object (map (rcolumn_of execute) cols) o = Ok r /\
      snd (row_get_values r) = map (fun c => match mget String.eqb (sc_name c) o with Some v => v | None => None end) cols.
  Proof.
    intros ND NX. pose proof (projection (map (rcolumn_of execute) cols) o) as P.
    rewrite map_map in P. specialize (P ND).
    assert (E : all_ok (map (fun c => column_value c o) (map (rcolumn_of execute) cols)) =
      Ok (map (fun c => match mget String.eqb (sc_name c) o with Some v => v | None => None end) cols)).
    { clear P ND. induction cols as [|c cols IH]; [reflexivity|]. cbn [map all_ok].
      unfold column_value at 1. rewrite (NX c) by now left. cbn [rbind]. rewrite IH; [reflexivity|].
      intros c' I. apply NX. now right. }
    rewrite E in P. destruct P as (r & lookup & R & _ & A). exists r. split; auto.
    specialize (A [RValues]). cbn in A. destruct (row_get_values r) as [r' vs]. cbn in *. congruence.
  Qed.

  Lemma seen_one s o r vs : schema_row execute s o = Ok r -> snd (row_get_values r) = vs ->
    seen execute s [o] = Some [Ok vs].
  Proof.
    intros R E. unfold seen. cbn [length].
    change (rs_loop 2 (new_rset [o] 0 0)) with (Some [Ok o]).
    cbn [map option_map rbind]. rewrite R. cbn [rbind]. now rewrite E.
  Qed.

  Fixpoint first_only (v : option V) (items : list item) : list (option V) :=
    match items with
    | [] => []
    | Plain _ :: r => None :: first_only v r
    | Agg _ _ :: r => v :: map (fun _ => None) r
    end.

  Definition get1 (name : string) (v : option V) (h : string) : option V := if String.eqb h name then v else None.
  Lemma get1_none name v hs : ~ In name hs -> map (get1 name v) hs = map (fun _ => None) hs.
  Proof.
    induction hs as [|h hs IH]; intros N; [reflexivity|]. cbn [map]. unfold get1 at 1.
    destruct (String.eqb_spec h name) as [X|X]; [destruct N; left; auto|]. rewrite IH; auto. intros I. apply N. now right.
  Qed.
  Lemma first_get items hs base v : Forall2 (heading_of base) items hs -> NoDup hs -> aggs items <> [] ->
    map (get1 (aggregate_name (fst (hd (SUM, "") (aggs items))) (snd (hd (SUM, "") (aggs items)))) v) hs = first_only v items.
  Proof.
    intros H. induction H as [|i h items hs Hi H IH]; intros ND NE; [now destruct NE|].
    inversion ND as [|? ? NI ND']; subst. destruct i as [n|k a]; cbn [first_only aggs] in *.
    - cbn [map]. rewrite (IH ND' NE). f_equal. unfold get1.
      destruct (String.eqb_spec h (aggregate_name (fst (hd (SUM, "") (aggs items))) (snd (hd (SUM, "") (aggs items))))) as [X|X]; auto.
      exfalso. apply NI. rewrite X. clear - H NE.
      induction H as [|i h items hs Hi H IH]; [now destruct NE|]. destruct i as [n|k a]; cbn [aggs hd fst snd] in *.
      + right. auto.
      + left. exact Hi.
    - cbn [hd fst snd]. cbn in Hi. subst h. cbn [map]. unfold get1 at 1. rewrite String.eqb_refl. f_equal.
      rewrite get1_none by exact NI. clear -H. induction H; cbn; auto. now f_equal.
  Qed.
  Lemma first_values items hs cs base v : Forall2 (heading_of base) items hs -> map sc_name cs = hs -> NoDup hs ->
    aggs items <> [] ->
    map (fun c => match mget String.eqb (sc_name c)
        [(aggregate_name (fst (hd (SUM, "") (aggs items))) (snd (hd (SUM, "") (aggs items))), v)] with Some v => v | None => None end) cs =
    first_only v items.
  Proof.
    intros H E ND NE. rewrite <- (first_get items hs base v H ND NE), <- E, map_map. apply map_ext. intros c.
    unfold get1. cbn [mget]. destruct (String.eqb _ _); reflexivity.
  Qed.

  Theorem aggregated_seen {R} base items hs l group db (row : R -> result (object V)) fuel src :
    written group items l -> aggs items <> [] -> ungrouped group -> unread src -> length (rows_in src) < fuel ->
    Forall2 (heading_of base) items hs -> NoDup hs ->
    match all_ok (map (fun r => all_ok (map (fun q => number_in (snd q) (row r)) (aggs items))) (rows_in src)) with
    | Ok yss => exists s rows,
        snd (aggregated_result_set to_float to_str compare num iter mem sort base l group (Some db) row fuel src) =
          Some (Ok (NewSet s rows)) /\
        rss_database s = db /\ rss_table s = t_name (s_table base) /\ headings s = hs /\
        seen execute s rows = Some [Ok (first_only
          (option_map num (aggregate_of (fst (hd (SUM, "") (aggs items))) (map (fun ys => hd fzero ys) yss))) items)]
    | Err e => snd (aggregated_result_set to_float to_str compare num iter mem sort base l group (Some db) row fuel src) = Some (Err e)
    | Panic => snd (aggregated_result_set to_float to_str compare num iter mem sort base l group (Some db) row fuel src) = Some Panic
    end.
  Proof.
    intros W NE U UR F H ND.
    pose proof (aggregated_objects base items l group db row fuel src W NE U UR F) as O.
    destruct (all_ok _) as [yss|e|]; auto. cbv zeta in O. eexists. eexists. split; [exact O|]. clear O.
    destruct (items_columns base items hs H) as (cs & SC & Eh & Fc).
    unfold new_rschema. cbn [fold_left apply_sopt blank_rschema fst rss_database rss_table rss_columns rss_base].
    rewrite SC. cbn [fst rss_database rss_table rss_columns rss_base headings]. split; auto. split; auto. split; [exact Eh|].
    assert (NX : forall c, In c cs -> rc_exec (rcolumn_of execute c) = None).
    { clear -Fc. induction Fc as [|i c items cs Hc _ IH]; [intros ? []|]. intros c' [<-|I]; [|auto].
      destruct i as [n|k a]; [unfold rcolumn_of; cbn; now rewrite Hc|]. eapply rcolumn_exec. exact Hc. }
    set (o := [(_, _)]).
    destruct (projected_values cs o) as (r & R1 & R2); [now rewrite Eh|exact NX|].
    eapply seen_one; [exact R1|]. rewrite R2. unfold o. eapply first_values; eauto.
  Qed.

  (** *** GROUP BY *)
  Lemma grouped_map a m : is_grouping a = true -> length (a_columns a) = length (a_groups a) + length (a_args a) ->
    exists e, snd (aggregate_map to_float to_str a 0 m) = Err e.
  Proof.
    intros G L. unfold aggregate_map. destruct (map_cells (a_args a) m) as [cells|e|] eqn:E.
    - apply map_cells_length in E. unfold aggregate_row. cbn [fr_cells].
      unfold is_grouping in G. destruct (Nat.eqb_spec (length (a_columns a)) (length cells)) as [X|X]; [|cbn; eauto].
      destruct (a_groups a); [discriminate|]. cbn in L. lia.
    - cbn. eauto.
    - exfalso. revert E. generalize (a_args a). intros l. induction l as [|x l IH]; [discriminate|]. cbn.
      destruct (String.eqb x "*").
      + destruct (map_cells l m); cbn; try discriminate. auto.
      + destruct (mget String.eqb x m); try discriminate. destruct (map_cells l m); cbn; try discriminate. auto.
  Qed.
  Lemma grouped_reset a g : g <> "" -> exists a', reset a [OptGroups [g]] = (a', Ok tt) /\
    is_grouping a' = true /\ length (a_columns a') = length (a_groups a') + length (a_args a').
  Proof.
    intros N. unfold reset. cbn [apply_opts apply_opt]. unfold set_groups, columns_of, is_grouping.
    cbn [filter]. destruct (String.eqb_spec g "") as [X|_]; [contradiction|]. cbn [negb a_groups length Nat.eqb app].
    eexists. split; [reflexivity|]. cbn. rewrite map_length. auto.
  Qed.
  Lemma has_members l l1 : has_aggregator (map rl_sel l) = true -> sel_aggregators l = (l1, Ok tt) -> members_of l1 <> [].
  Proof.
    revert l1. induction l as [|s l IH]; intros l1 H E; [discriminate|]. cbn [sel_aggregators] in E.
    destruct (sel_aggregator s) as [s' e] eqn:Es.
    destruct (sel_aggregators l) as [l2 e2] eqn:El.
    destruct e as [u|e|]; try discriminate. inversion E; subst.
    unfold has_aggregator in *. cbn [map has_function_with_type] in H. cbn [members_of].
    unfold sel_aggregator in Es. destruct (sel_function (rl_sel s)) as [f|] eqn:Ef.
    - destruct (rl_aggr s) as [a|] eqn:Ea.
      + inversion Es; subst. rewrite Ef, Ea. discriminate.
      + destruct (rbind _ _) as [a|e|]; try discriminate. inversion Es; subst. cbn [rl_sel rl_aggr].
        destruct (rl_sel s) as [c|f']; cbn in *; [rewrite Ef|]; discriminate.
    - inversion Es; subst. rewrite Ef. apply (IH l2); auto.
  Qed.
  Lemma result_unit {A} (r : result A) : (exists a, r = Ok a) \/ (exists e, r = Err e) \/ r = Panic.
  Proof. destruct r; eauto. Qed.

  Lemma new_aggr_total k args : new_aggr k [OptArgs args] <> Panic.
  Proof.
    unfold new_aggr. cbn [apply_opts apply_opt blank_aggr a_args length Nat.ltb Nat.leb].
    unfold reset. cbn [apply_opts]. destruct (_ =? 0); discriminate.
  Qed.
  Lemma aggregators_total l l1 : sel_aggregators l <> (l1, Panic).
  Proof.
    revert l1. induction l as [|s l IH]; intros l1; [discriminate|]. cbn [sel_aggregators].
    unfold sel_aggregator. destruct (sel_function (rl_sel s)) as [f|].
    2:{ destruct (sel_aggregators l) as [l2 e2]. intros E; inversion E; subst. eapply IH. eauto. }
    destruct (rl_aggr s) as [a|].
    { destruct (sel_aggregators l) as [l2 e2]. intros E; inversion E; subst. eapply IH. eauto. }
    destruct (new_aggregator_kind (f_name f)) as [k|e|] eqn:K; cbn [rbind].
    - destruct (new_aggr k [OptArgs (f_args f)]) as [a|e|] eqn:Na.
      + destruct (sel_aggregators l) as [l2 e2]. intros E; inversion E; subst. eapply IH. eauto.
      + discriminate.
      + now apply new_aggr_total in Na.
    - discriminate.
    - exfalso. unfold new_aggregator_kind in K. destruct (find _ _); discriminate.
  Qed.

  Theorem grouped_source_fails {R} base l g db (row : R -> result (object V)) fuel src r0 rest m :
    has_aggregator (map rl_sel l) = true -> g <> "" -> unread src -> length (rows_in src) < fuel ->
    rows_in src = r0 :: rest -> row r0 = Ok m ->
    exists e, snd (aggregated_result_set to_float to_str compare num iter mem sort base l (Some g) (Some db) row fuel src) = Some (Err e).
  Proof.
    intros HA NG UR F ER Er. unfold aggregated_result_set. rewrite HA. cbn [negb].
    destruct (sel_aggregators l) as [l1 e1] eqn:SA. destruct e1 as [[]|e|]; [|cbn; eauto|now apply aggregators_total in SA].
    pose proof (has_members l l1 HA SA) as NM. cbn [group_opts].
    assert (SR : forall ms, exists ms', set_reset ms [OptGroups [g]] = (ms', Ok tt) /\
      Forall (fun a => is_grouping a = true /\ length (a_columns a) = length (a_groups a) + length (a_args a)) ms' /\
      length ms' = length ms).
    { clear - NG. induction ms as [|a ms IH]; [exists []; repeat split; constructor|].
      destruct IH as (ms' & E & F & L). destruct (grouped_reset a g NG) as (a' & Ea & Ga & La).
      exists (a' :: ms'). cbn [set_reset]. rewrite Ea, E. repeat split; [constructor; auto|cbn; lia]. }
    destruct (SR (members_of l1)) as (ms & E & Fm & Lm). rewrite E.
    rewrite (source_fold _ _ _ _ _ (unread_loop src fuel UR F)), ER. cbn [map fold_source rbind]. rewrite Er.
    destruct ms as [|a ms]; [destruct (members_of l1); [now destruct NM|discriminate]|].
    inversion Fm as [|? ? (Ga & La) _]; subst. destruct (grouped_map a m Ga La) as (e & Ee).
    cbn [ModelAggregate.set_aggregate_map]. destruct (aggregate_map to_float to_str a 0 m) as [a' x]. cbn in Ee. subst x.
    cbn. eauto.
  Qed.
End Agg.
