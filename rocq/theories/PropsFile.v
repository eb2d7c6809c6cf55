(** Property C80: listing the files of a directory, and testing a directory of query files. *)
From Verif Require Import GoBase FactsBase ModelUtil ModelNum ModelQuery ModelEbnf ModelGrammar ModelLex ModelVisitor ModelSqltest ModelFile SpecFile ProofFn ProofSqltest ProofFile.

(** What is no directory cannot be listed. *)
Theorem C80_no_directory : forall keep path r, (r = RootNone \/ r = RootFile) -> exists e, list_files keep path r = Err e.
Proof. intros keep path r [->| ->]; eexists; reflexivity. Qed.
Print Assumptions C80_no_directory.

(** With no entry gone, the listing has exactly the files below the directory that are asked for, whatever the depth, ... *)
Theorem C80_listed_partial : forall keep path es, ~ gone_below (NDir "" es) ->
  exists l, list_files keep path (RootDir es) = Ok l /\ forall q, In q l <-> file_at path (NDir "" es) q /\ keep q = true.
Proof. intros keep path es G. exact (walk_ok keep (NDir "" es) path G). Qed.
Print Assumptions C80_listed_partial.

(** ... each once, ... *)
Theorem C80_once : forall keep path es l, well_named (NDir "" es) -> list_files keep path (RootDir es) = Ok l -> NoDup l.
Proof. intros keep path es l W E. exact (walk_nodup keep (NDir "" es) path l W E). Qed.
Print Assumptions C80_once.

(** ... and all of them if none is asked for. *)
Theorem C80_all : forall path es, ~ gone_below (NDir "" es) ->
  exists l, list_all_files path (RootDir es) = Ok l /\ forall q, In q l <-> file_at path (NDir "" es) q.
Proof.
  intros path es G. destruct (walk_ok (keep_ext "") (NDir "" es) path G) as (l & E & H). exists l. split; [exact E|].
  intro q. rewrite H. split; [intros [F _]; exact F|intro F; split; [exact F|reflexivity]].
Qed.
Print Assumptions C80_all.

(** An extension with its dot lists the files whose names end in it. *)
Theorem C80_extension : forall e path es, ~ In "."%char (list_ascii_of_string e) -> ~ In "/"%char (list_ascii_of_string e) ->
  ~ gone_below (NDir "" es) -> exists l, list_files_with_extension ("." ++ e) path (RootDir es) = Ok l /\
    forall q, In q l <-> file_at path (NDir "" es) q /\ exists r, q = (r ++ "." ++ e)%string.
Proof.
  intros e path es D S G. destruct (walk_ok (keep_ext ("." ++ e)) (NDir "" es) path G) as (l & E & H). exists l. split; [exact E|].
  intro q. rewrite H. cbn [append]. rewrite (keep_ext_iff e q D S). reflexivity.
Qed.
Print Assumptions C80_extension.

(** An entry that goes while the directory is listed panics, wherever it is. *)
Theorem C80_gone_refuted : forall keep path es, gone_below (NDir "" es) -> list_files keep path (RootDir es) = Panic.
Proof. intros keep path es G. exact (walk_gone keep (NDir "" es) path G). Qed.
Print Assumptions C80_gone_refuted.

(** A directory that cannot be read gives an empty list and no error. *)
Theorem C80_unreadable_refuted : forall keep path, list_files keep path (RootDir None) = Ok [].
Proof. reflexivity. Qed.
Print Assumptions C80_unreadable_refuted.

(** A link to a directory is listed as a file, and nothing below it. *)
Theorem C80_link_refuted : forall path es, list_all_files path (RootLink es) = Ok [path].
Proof. reflexivity. Qed.
Print Assumptions C80_link_refuted.

(** An extension without its dot lists the files of other extensions. *)
Theorem C80_extension_refuted : list_files_with_extension "sql" "d" (RootDir (Some [NFile "a.sql"; NFile "b.mysql"])) = Ok ["d/a.sql"; "d/b.mysql"].
Proof. vm_compute. reflexivity. Qed.
Print Assumptions C80_extension_refuted.

(** A directory of query files passes exactly if every file below it whose name is asked for can be read and passes. *)
Theorem C80_directory : forall entries cfg contents matches path es, ~ gone_below (NDir "" es) ->
  successful (test_query_directory entries cfg contents matches path (RootDir es)) = true <->
  forall q, file_at path (NDir "" es) q -> matches q = true ->
    exists text, contents q = Some text /\ successful (test_query_file entries cfg text) = true.
Proof.
  intros entries cfg contents matches path es G. destruct (walk_ok matches (NDir "" es) path G) as (l & E & H).
  unfold test_query_directory, list_files_with_regexp, list_files. cbn [is_dir root_node]. rewrite E, file_verdicts_fine, Forall_forall. split.
  - intros A q F K. apply A, H. split; assumption.
  - intros A q I. apply H in I. apply A; apply I.
Qed.
Print Assumptions C80_directory.

Example C80_example : let es := Some [NDir "s" (Some [NFile "c.sql"; NFile "d.txt"]); NDir "x" None; NFile "a.sql"] in
  list_files_with_extension ".sql" "d" (RootDir es) = Ok ["d/s/c.sql"; "d/a.sql"] /\ well_named (NDir "" es) /\ ~ gone_below (NDir "" es)
  /\ path_ext "a.b/c" = "" /\ path_ext "a.tar.gz" = ".gz".
Proof.
  split; [vm_compute; reflexivity|]. split.
  { constructor.
    - cbn. constructor; [intros [H|[H|[]]]; discriminate H|]. constructor; [intros [H|[]]; discriminate H|]. constructor; [intros []|constructor].
    - intros e [<-|[<-|[<-|[]]]]; (split; [cbn; intuition discriminate|]); [|constructor|constructor].
      constructor; [cbn; constructor; [intros [H|[]]; discriminate H|constructor; [intros []|constructor]]|].
      intros f [<-|[<-|[]]]; (split; [cbn; intuition discriminate|constructor]). }
  split; [|vm_compute; split; reflexivity].
  intro G. inversion G as [|? ? e I G']; subst. destruct I as [<-|[<-|[<-|[]]]]; inversion G' as [|? ? f J G'']; subst.
  destruct J as [<-|[<-|[]]]; inversion G''.
Qed.
