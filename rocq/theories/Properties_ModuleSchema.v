(** C85 for the two generated modules of /repo: capnpy/schema.py and
    capnpy/annotate.py, whose texts are in SchemaModule.v word for word. *)
From Coq Require Import Strings.String.
From Verif Require CaseFacts.
From Verif Require Import Base Case Loader PySyntax PyModule PyModuleRun GenText SchemaText ModuleText ModuleSpec TextSamples ModuleSamples ReprTextSamples SchemaModule ModuleSchema ModuleSchema2 Properties_ModuleText.
From Coq Require Import Lists.List.
Local Open Scope string_scope.
Local Open Scope list_scope.
Local Open Scope Z_scope.

Lemma same_text_eq : forall a b, same_text a b = true -> a = b.
Proof.
  induction a as [|x a IH]; intros [|y b] H; try discriminate H; [reflexivity|]. cbn [same_text] in H. apply andb_prop in H. destruct H as (A & B).
  apply CaseFacts.str_eqb_spec in A. rewrite A. f_equal. apply IH, B.
Qed.

(** schema.py is read in one way, runs to the end, and every node of schema.capnp
    then is what it must be (the files end without a newline: the last line that
    the compiler writes is an empty one) *)
Theorem C85_schema version modname file : exists st,
  runs version modname file (map lit schema_py ++ [[]]) st /\
  (forall st', runs version modname file (map lit schema_py ++ [[]]) st' -> st' = st) /\
  (forall n, In n (all_nodes schema_nodes) -> holds st floats schema_names n) /\
  forall n v, In (NConst n v) schema_nodes -> constant_is v (get (m_globals st) n).
Proof.
  rewrite <- (same_text_eq _ _ schema_text). apply (C85_runs _ _ _ _ version modname file _ _ schema_readable schema_named). discriminate.
Qed.
Print Assumptions C85_schema.

Theorem C85_annotate version modname file : exists st,
  runs version modname file (map lit annotate_py ++ [[]]) st /\
  (forall st', runs version modname file (map lit annotate_py ++ [[]]) st' -> st' = st) /\
  (forall n, In n (all_nodes annotate_nodes) -> holds st floats (names_of annotate_classes) n) /\
  forall n v, In (NConst n v) annotate_nodes -> constant_is v (get (m_globals st) n).
Proof.
  rewrite <- (same_text_eq _ _ annotate_module). apply (C85_runs _ _ _ _ version modname file _ _ annotate_readable annotate_named). discriminate.
Qed.
Print Assumptions C85_annotate.
