(** Running the header and the declarations of a generated module. *)
From Coq Require Import Strings.String.
From Verif Require FloatBits.
From Verif Require Import Base BaseFacts Spec CopyList Case CaseFacts Loader List PyExpr Ctor PySyntax PySyntaxFacts PyPrint GenTextFacts
  ClassFacts PyModule PyModuleFacts ModuleText ModuleTextFacts ModuleRead PyModuleRun ModuleRunFacts.
From Coq Require Import Lists.List.
Local Notation length := Datatypes.length.
Local Open Scope string_scope.
Local Open Scope list_scope.
Local Open Scope Z_scope.

Definition ext (path : list string) (n : string) : mval := VExt (map lit path) (lit n).
(** what the generated code uses of the header *)
Definition needed : list (string * mval) :=
  [("_Struct", ext ["capnpy"; "struct_"] "Struct"); ("_BaseEnum", ext ["capnpy"; "enum"] "BaseEnum"); ("_fill_enum", ext ["capnpy"; "enum"] "fill_enum");
   ("_StructItemType", ext ["capnpy"; "list"] "StructItemType"); ("_EnumItemType", ext ["capnpy"; "list"] "EnumItemType");
   ("_extend_module_maybe", ext ["capnpy"; "util"] "extend_module_maybe")].
Definition runtime_ok (g : env) : Prop := forall n v, In (n, v) needed -> get g (lit n) = Some v.
Definition needed_names : list str := map (fun p => lit (fst p)) needed.
Lemma runtime_new b g : (forall n, In n (keys b) -> ~ In n needed_names) -> runtime_ok g -> runtime_ok (b ++ g).
Proof.
  intros N R n v I. rewrite get_new; [now apply R|]. intros J. apply (N _ J). apply in_map_iff. exists (n, v). split; [reflexivity|exact I].
Qed.

Lemma ev_num loc g z : ev loc g (num z) = Ok (VInt z).
Proof. unfold num. destruct (z <? 0) eqn:E; [|reflexivity]. cbn [ev]. do 2 f_equal. lia. Qed.
Lemma ev_strs loc g l : ev loc g (xTup (map xStr l)) = Ok (VTup (map VStr l)).
Proof.
  cbn [ev]. match goal with |- (do vs <- ?f _; _) = _ => assert (E : f (map xStr l) = Ok (map VStr l)) end.
  { induction l as [|x l IH]; [reflexivity|]. cbn [map]. cbn [ev bind] in *. rewrite IH. reflexivity. }
  rewrite E. reflexivity.
Qed.

(** ** The header *)
Definition imported : mst := match exec [] import_asts (mkmst [] []) with Ok st => st | Err _ => mkmst [] [] end.
Lemma imports_frame v l : forall g H g' H', Forall (fun q => match q with mImport _ _ => True | _ => False end) l ->
  exec v l (mkmst [] []) = Ok (mkmst g' H') -> exec v l (mkmst g H) = Ok (mkmst (g' ++ g) H).
Proof.
  assert (G : forall l g0 g H g' H', Forall (fun q => match q with mImport _ _ => True | _ => False end) l ->
    exec v l (mkmst g0 []) = Ok (mkmst g' H') -> exec v l (mkmst (g0 ++ g) H) = Ok (mkmst (g' ++ g) H)).
  { clear. induction l as [|q l IH]; intros g0 g H g' H' F E; [cbn in *; now injection E as -> _|].
    inversion F as [|? ? Q F']; subst. destruct q; try contradiction. cbn [exec exec_item bind m_globals m_heap] in *. rewrite app_assoc. eapply IH; eassumption. }
  intros g H g' H' F E. exact (G l [] g H g' H' F E).
Qed.
Lemma imports_run v g H : exec v import_asts (mkmst g H) = Ok (mkmst (m_globals imported ++ g) H).
Proof.
  apply (imports_frame v import_asts g H _ []); [|vm_compute; reflexivity].
  apply Forall_forall. intros q I. vm_compute in I. repeat (destruct I as [<-|I]; [exact Logic.I|]). destruct I.
Qed.
Lemma imported_ok g : runtime_ok (m_globals imported ++ g).
Proof.
  intros n v I. rewrite get_app. unfold needed in I. cbn [In] in I.
  repeat (destruct I as [E|I]; [injection E as <- <-; vm_compute; reflexivity|]). destruct I.
Qed.
Lemma refl_needed m : ~ In (reflection_name m) needed_names.
Proof.
  unfold reflection_name. intros I. assert (X : In (rev (lit "_" ++ m ++ lit "_ReflectionData")) (map (@rev Z) needed_names)) by now apply in_map.
  rewrite !rev_app_distr in X. vm_compute in X. repeat (destruct X as [X|X]; [discriminate X|]). destruct X.
Qed.
Lemma const_ast_ev loc g cls c : ev loc g (const_ast cls c) = Ok (VOther (const_ast cls c)).
Proof. destruct c as (((b, off), ds), ps). reflexivity. Qed.
Lemma header_run h version mn sch : (h_check h = true -> h_version h = version) ->
  exists g H, exec version (header_ast h) (start mn sch) = Ok (mkmst g H) /\ runtime_ok g.
Proof.
  intros Ve. unfold header_ast, start. rewrite exec_app, imports_run. cbn [bind]. set (g0 := m_globals imported ++ _).
  assert (R0 : runtime_ok g0) by apply imported_ok.
  rewrite exec_app. cbn [exec exec_item ev bind bind_global m_globals m_heap set].
  set (b1 := [(lit "__capnproto_version__", VStr (h_capnproto h)); (lit "__capnpy_version__", VStr (h_version h)); (lit "__capnpy_id__", VInt (h_id h))]).
  change (bind_global (bind_global (bind_global _ _ _) _ _) _ _) with (mkmst (b1 ++ g0) []).
  assert (R1 : runtime_ok (b1 ++ g0)).
  { apply runtime_new; [|exact R0]. intros n I J. vm_compute in I. repeat (destruct I as [<-|I]; [vm_compute in J; repeat (destruct J as [J|J]; [discriminate J|]); destruct J|]). destruct I. }
  assert (C : exec version (if h_check h then [mStmt (qExpr (xApp (xVar (lit "_check_version")) [xVar (lit "__name__"); xVar (lit "__capnpy_version__")] []))] else []) (mkmst (b1 ++ g0) [])
    = Ok (mkmst (b1 ++ g0) [])).
  { destruct (h_check h); [|reflexivity]. cbn [exec exec_item bind m_globals].
    rewrite (look_global (b1 ++ g0) (lit "_check_version") (ext ["capnpy"; "util"] "check_version")) by (rewrite get_new; [unfold g0; rewrite get_app; vm_compute; reflexivity|];
      intros I; vm_compute in I; repeat (destruct I as [I|I]; [discriminate I|]); destruct I).
    cbn [bind]. change (ext_is (ext ["capnpy"; "util"] "check_version") ["capnpy"; "enum"] "fill_enum") with false. change (ext_is (ext ["capnpy"; "util"] "check_version") ["capnpy"; "util"] "check_version") with true. cbn iota.
    change (ev [] (b1 ++ g0) (V "__capnpy_version__")) with (look [] (b1 ++ g0) (lit "__capnpy_version__")).
    rewrite (look_global (b1 ++ g0) (lit "__capnpy_version__") (VStr (h_version h))) by reflexivity. cbn [bind]. rewrite (Ve eq_refl), str_eqb_refl. reflexivity. }
  rewrite exec_app, C. cbn [bind]. destruct (h_reflection h) as [[[m rq] op]|]; [|exists (b1 ++ g0), []; split; [reflexivity|exact R1]].
  unfold reflection_ast. rewrite exec_app.
  assert (I3 : exec version (map import_of ["from capnpy.schema import CodeGeneratorRequest as _CodeGeneratorRequest"; "from capnpy.annotate import Options as _Options";
        "from capnpy.reflection import ReflectionData as _ReflectionData"]) (mkmst (b1 ++ g0) []) =
     Ok (mkmst ([(lit "_ReflectionData", ext ["capnpy"; "reflection"] "ReflectionData"); (lit "_Options", ext ["capnpy"; "annotate"] "Options");
        (lit "_CodeGeneratorRequest", ext ["capnpy"; "schema"] "CodeGeneratorRequest")] ++ b1 ++ g0) [])).
  { apply (imports_frame version _ (b1 ++ g0) [] _ []); [|vm_compute; reflexivity].
    apply Forall_forall. intros q I. vm_compute in I. repeat (destruct I as [<-|I]; [exact Logic.I|]). destruct I. }
  rewrite I3. cbn [bind]. set (b2 := [_; _; _] : env). set (g2 := b2 ++ b1 ++ g0).
  assert (R2 : runtime_ok g2).
  { apply runtime_new; [|exact R1]. intros n I J. vm_compute in I. repeat (destruct I as [<-|I]; [vm_compute in J; repeat (destruct J as [J|J]; [discriminate J|]); destruct J|]). destruct I. }
  cbn [exec exec_item m_globals m_heap]. rewrite (look_global g2 (lit "_ReflectionData") (ext ["capnpy"; "reflection"] "ReflectionData")) by reflexivity.
  cbn [bind class_body class_step set]. rewrite !const_ast_ev. cbn [bind class_body class_step ev]. rewrite const_ast_ev. cbn [bind ev bind_global m_globals m_heap length app].
  eexists _, _. split; [reflexivity|].
  change (runtime_ok ([(lit "_reflection_data", VOther (xApp (xVar (reflection_name m)) [] [])); (reflection_name m, VCls 0)] ++ g2)).
  apply runtime_new; [|exact R2]. intros n [<-|[<-|[]]]; [|apply refl_needed]. intros J. vm_compute in J. repeat (destruct J as [J|J]; [discriminate J|]); destruct J.
Qed.
