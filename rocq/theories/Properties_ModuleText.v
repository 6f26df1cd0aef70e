(** C85: the text of a whole generated module (pure-Python mode) is a Python
    module, and running it makes the classes of the schema.
    Model: ModuleText.v; reading: PyModule.v; running: PyModuleRun.v; what
    must hold: ModuleSpec.v. *)
From Coq Require Import Strings.String.
From Verif Require FloatBits TextSamples.
From Verif Require Import Base BaseFacts Spec CopyList Case CaseFacts Loader List PyExpr Ctor PySyntax PySyntaxFacts PyPrint PyRun GenRun GenText GenTextFacts
  ClassText ReprText KeyText TextSpec ClassSpec ReprTextFacts ClassFacts PyModule PyModuleFacts ModuleText ModuleTextFacts ModuleRead PyModuleRun ModuleRunFacts ModuleRun2 ModuleSpec ModuleRun3 ModuleRun4 ModuleRun5 ModuleRun6 ModuleRun7 ModuleSamples.
From Coq Require Import Lists.List Permutation.
Local Notation length := Datatypes.length.
Local Open Scope string_scope.
Local Open Scope list_scope.
Local Open Scope Z_scope.

(** ** Reading *)

(** Every module written for a schema as the compiler accepts it is Python, and
    is read in one way. *)
Theorem C85_reads w fl nm val h nodes : readable w fl nm val h nodes ->
  exists l, module_as (module_text fl nm h nodes) l /\ forall l', module_as (module_text fl nm h nodes) l' -> l' = l.
Proof.
  intros R. destruct (module_read w fl nm val h nodes R) as (bs & _ & _ & B). exists (module_ast val h nodes bs).
  split; [now apply mb_module|]. intros l' M. eapply module_unique; [exact M|now apply mb_module].
Qed.
Print Assumptions C85_reads.

(** ** Running *)

(** Importing the module leaves, for every enum, struct and group of the
    schema, at any depth, the class with its name, constants, nested types, tag
    and methods, the item types of its lists, and the constants of the module;
    and nothing else happens. *)
Theorem C85_runs w fl nm val version modname schema h nodes :
  readable w fl nm val h nodes -> named nodes -> (h_check h = true -> h_version h = version) ->
  exists st, runs version modname schema (module_text fl nm h nodes) st /\
    (forall st', runs version modname schema (module_text fl nm h nodes) st' -> st' = st) /\
    (forall n, In n (all_nodes nodes) -> holds st fl nm n) /\
    forall n v, In (NConst n v) nodes -> constant_is v (get (m_globals st) n).
Proof.
  intros R N Ve. destruct (module_read w fl nm val h nodes R) as (bs & E & F & B). pose proof (mb_module _ _ B) as M.
  destruct (run_all w fl nm val version h nodes bs modname schema R N Ve E F) as (st & X & H). exists st. split; [exists (module_ast val h nodes bs); split; assumption|]. split; [|exact H].
  intros st' (l' & M' & X'). rewrite (module_unique _ _ _ M' M), X in X'. now injection X' as ->.
Qed.
Print Assumptions C85_runs.

(** A module compiled by another version of capnpy is not imported, unless it
    was compiled with --no-version-check. *)
Theorem C85_version w fl nm val version modname schema h nodes :
  readable w fl nm val h nodes -> h_check h = true -> h_version h <> version ->
  forall l, module_as (module_text fl nm h nodes) l -> exec version l (start modname schema) = Err SystemError.
Proof.
  intros R Ch Ne l M. destruct (module_read w fl nm val h nodes R) as (bs & _ & _ & B). rewrite (module_unique _ _ _ M (mb_module _ _ B)).
  unfold module_ast. rewrite exec_app. unfold header_ast, start. rewrite exec_app, imports_run. cbn [bind]. set (g0 := m_globals imported ++ _).
  rewrite Ch, exec_app. cbn [exec exec_item ev bind bind_global m_globals m_heap set].
  set (b1 := [(lit "__capnproto_version__", VStr (h_capnproto h)); (lit "__capnpy_version__", VStr (h_version h)); (lit "__capnpy_id__", VInt (h_id h))]).
  change (bind_global (bind_global (bind_global _ _ _) _ _) _ _) with (mkmst (b1 ++ g0) []).
  rewrite exec_app. cbn [exec exec_item bind m_globals].
  rewrite (look_global (b1 ++ g0) (lit "_check_version") (ext ["capnpy"; "util"] "check_version")) by (rewrite get_new; [unfold g0; rewrite get_app; vm_compute; reflexivity|];
    intros I; vm_compute in I; repeat (destruct I as [I|I]; [discriminate I|]); destruct I).
  cbn [bind]. change (ext_is (ext ["capnpy"; "util"] "check_version") ["capnpy"; "enum"] "fill_enum") with false. change (ext_is (ext ["capnpy"; "util"] "check_version") ["capnpy"; "util"] "check_version") with true. cbn iota.
  change (ev [] (b1 ++ g0) (V "__capnpy_version__")) with (look [] (b1 ++ g0) (lit "__capnpy_version__")).
  rewrite (look_global (b1 ++ g0) (lit "__capnpy_version__") (VStr (h_version h))) by reflexivity. cbn [bind].
  destruct (str_eqb (h_version h) version) eqn:Q; [apply str_eqb_spec in Q; contradiction|reflexivity].
Qed.
Print Assumptions C85_version.

(** A module with an annotation, constants, a struct with two groups, a union
    and a nested enum meets the conditions. *)
Lemma C85_sample : exists st, runs (lit "0.10.2") (lit "m") (lit "m.capnp") (sample_text "Color") st /\ forall n, In n (all_nodes (module_nodes "Color")) -> holds st TextSamples.floats nm_all n.
Proof.
  destruct (C85_runs TextSamples.w TextSamples.floats nm_all mval_of (lit "0.10.2") (lit "m") (lit "m.capnp") module_header (module_nodes "Color") (sample_readable "Color" (or_introl eq_refl)) sample_named (fun _ => eq_refl)) as (st & R & _ & H & _).
  exists st. split; assumption.
Qed.

(** ** Outside of the conditions *)

(** An enum without members, which Cap'n Proto's language does not exclude, is
    written [__members__ = (,)]: the module is a SyntaxError. *)
Theorem C85_empty_enum_refuted l : ~ module_as (enum_text (lit "E") (Some 1) []) l.
Proof.
  intros (toks & n & L & P). vm_compute in L. injection L as <-.
  do 40 (destruct n as [|n]; [vm_compute in P; discriminate P|]). vm_compute in P. discriminate P.
Qed.
Print Assumptions C85_empty_enum_refuted.

(** A nested type and a group of the same struct may be called G and g: the
    module is imported, but obj.G is the constructor of the group. *)
Theorem C85_hidden_type_refuted : readable TextSamples.w TextSamples.floats nm_all mval_of module_header (module_nodes "G") /\
  (exists st, runs (lit "0.10.2") (lit "m") (lit "m.capnp") (sample_text "G") st) /\
  forall st, runs (lit "0.10.2") (lit "m") (lit "m.capnp") (sample_text "G") st -> ~ holds st TextSamples.floats nm_all (node_sample "G").
Proof.
  split; [apply sample_readable; right; now left|]. pose proof hidden_state as H. destruct (state_of (sample_text "G")) as [s0|] eqn:S; [|destruct H]. apply state_runs in S. split; [exists s0; exact S|].
  intros st R Hd. assert (E : st = s0).
  { destruct S as (l & M & X). destruct R as (l' & M' & X'). rewrite (module_unique _ _ _ M' M), X in X'. now injection X' as ->. }
  subst s0. destruct Hd as (i & (c & (Cg & Ch) & _ & _ & _ & _ & _ & _ & _ & En & _) & _).
  destruct (En (lit "G") (lit "Node_G") 11713690927886871126 (map lit ["red"; "green"; "blue"])) as (i' & A & _); [right; right; now left|].
  unfold shows, global_attr in H. change (sd_name sd_node) with (lit "Node") in Cg. rewrite Cg, Ch, A in H. discriminate H.
Qed.
Print Assumptions C85_hidden_type_refuted.
