(** A module with an annotation, a constant and the class Node of
    ClassSamples.v, in which there are an enum, a constant, two groups *)
From Coq Require Import Strings.String.
From Verif Require FloatBits Names CtorSamples CtorSpec.
From Verif Require Import Base BaseFacts Spec Ptr Segment Builder Copy Struct List CopyList Case CaseFacts Loader Repr PyExpr
  Ctor PySyntax PySyntaxFacts PyPrint PyRun GenRun GenText ClassText SchemaText TextSpec ClassSpec Properties_Text Properties_TextNew TextSamples TextNewSamples Properties_ClassText
  ReprText ReprTextFacts KeyText ReprTextSamples ClassSamples PyModule ModuleText PyModuleRun ModuleSpec.
From Coq Require Import Lists.List.
Local Notation length := Datatypes.length.
Local Open Scope string_scope.
Local Open Scope list_scope.
Local Open Scope Z_scope.

Definition mval_of (v : str) : pexp := if str_eqb v (lit "7") then xNum 7 else if str_eqb v (lit "-3") then xNeg (xNum 3) else xStr (lit "hello").
Definition sd (short name dotname : string) (id : Z) (group : bool) (sn : struct_node) (key : option (list field)) : struct_decl :=
  mksd (lit short) (lit name) (lit dotname) id group sn (nfields (sn_fields sn) (map f_name (sn_fields sn))) key.
Definition sd_node : struct_decl := sd "Node" "Node" "Node" 11713690927886871123 false CtorSamples.node (Some [CtorSamples.fa; CtorSamples.ft; CtorSamples.fl]).
Definition sd_g : struct_decl := sd "g" "Node_g" "Node.g" 11713690927886871124 true g_node None.
Definition sd_n : struct_decl := sd "n" "Node_n" "Node.n" 11713690927886871125 true n_node None.
Definition color (short : string) : mnode := NEnum (lit short) (lit "Node_" ++ lit short) 11713690927886871126 (map lit ["red"; "green"; "blue"]).
Definition module_nodes (short : string) : list mnode :=
  [NAnn (lit "label") 11713690927886871127 (repeat true 12); NConst (lit "limit") (lit "7");
   NStruct sd_node [NStruct sd_g []; NStruct sd_n []; color short; NConst (lit "greeting") (lit "'hello'"); NConst (lit "low") (lit "-3")]].
Definition node_sample (short : string) : mnode := NStruct sd_node [NStruct sd_g []; NStruct sd_n []; color short; NConst (lit "greeting") (lit "'hello'"); NConst (lit "low") (lit "-3")].
Lemma sample_nodes short n : In n (all_nodes (module_nodes short)) ->
  n = NAnn (lit "label") 11713690927886871127 (repeat true 12) \/ n = NConst (lit "limit") (lit "7") \/ n = NStruct sd_g [] \/ n = NStruct sd_n [] \/ n = color short \/
  n = NConst (lit "greeting") (lit "'hello'") \/ n = NConst (lit "low") (lit "-3") \/ n = node_sample short.
Proof.
  change (all_nodes (module_nodes short)) with [NAnn (lit "label") 11713690927886871127 (repeat true 12); NConst (lit "limit") (lit "7"); NStruct sd_g []; NStruct sd_n []; color short;
    NConst (lit "greeting") (lit "'hello'"); NConst (lit "low") (lit "-3"); node_sample short]. intros I. cbn [In] in I. intuition auto.
Qed.
Definition module_header : header := mkheader (lit "2026-11-18 20:00") 11713690927886871122 (lit "0.10.2") (lit "1.0.1") true false None.
Definition nm_all (_ : str) := nms.

Lemma plain_check s : forallb (fun c => negb (c =? 39) && negb (c =? 92) && negb (c =? 10)) s = true -> quotable s.
Proof. intros H c I. rewrite forallb_forall in H. specialize (H c I). apply andb_prop in H. destruct H as (H & C). apply andb_prop in H. destruct H as (A & B). lia. Qed.
Lemma plains_check l : forallb (forallb (fun c => negb (c =? 39) && negb (c =? 92) && negb (c =? 10))) l = true -> Forall quotable l.
Proof. intros H. apply Forall_forall. intros s I. rewrite forallb_forall in H. apply plain_check, H, I. Qed.
Lemma shown_check l : forallb (fun f => ident (nf_name f) && negb (keyword (nf_name f)) && ident (rf_cap (nf_field f))) l = true -> Forall shown_field l.
Proof.
  intros H. apply Forall_forall. intros f I. rewrite forallb_forall in H. specialize (H f I). apply andb_prop in H. destruct H as (H & C). apply andb_prop in H. destruct H as (A & B).
  split; [|exact C]. split; [exact A|]. destruct (keyword _); [discriminate B|reflexivity].
Qed.
Lemma keys_check (l : list field) : forallb (fun f => ident (lit (f_name f)) && negb (keyword (lit (f_name f)))) l = true -> Forall (fun f => py_name (lit (f_name f))) l.
Proof.
  intros H. apply Forall_forall. intros f I. rewrite forallb_forall in H. specialize (H f I). apply andb_prop in H. destruct H as (A & B). split; [exact A|]. destruct (keyword _); [discriminate B|reflexivity].
Qed.
Lemma sample_readable short : In short ["Color"; "G"] -> readable w floats nm_all mval_of module_header (module_nodes short).
Proof.
  intros S. split; [split; [unfold module_header, h_id; lia|]; split; [apply plain_check; vm_compute; reflexivity|]; split; [apply plain_check; vm_compute; reflexivity|exact Logic.I]|].
  intros n I. destruct (sample_nodes _ _ I) as [->|[->|[->|[->|[->|[->|[->| ->]]]]]]].
  - split; [split; reflexivity|vm_compute; split; [discriminate|reflexivity]].
  - split; [split; reflexivity|]. unfold value_read. replace (mval_of (lit "7")) with (xNum 7) by reflexivity. split; [cbn [wfx]; lia|]. split; [vm_compute; reflexivity|exact Logic.I].
  - split; [split; reflexivity|]. split; [split; reflexivity|]. split; [apply plain_check; vm_compute; reflexivity|]. split; [vm_compute; split; [discriminate|reflexivity]|]. split; [exists (lit "Node_g"); exact (mc_described _ _ _ _ _ _ _ _ g_made)|].
    split; [apply shown_check; vm_compute; reflexivity|exact Logic.I].
  - split; [split; reflexivity|]. split; [split; reflexivity|]. split; [apply plain_check; vm_compute; reflexivity|]. split; [vm_compute; split; [discriminate|reflexivity]|]. split; [exists (lit "Node_n"); exact (mc_described _ _ _ _ _ _ _ _ n_made)|].
    split; [apply shown_check; vm_compute; reflexivity|exact Logic.I].
  - cbn in S. decompose [or] S; try contradiction; subst short; (split; [split; reflexivity|]; split; [split; reflexivity|]; split; [discriminate|apply plains_check; vm_compute; reflexivity]).
  - split; [split; reflexivity|]. unfold value_read. replace (mval_of (lit "'hello'")) with (xStr (lit "hello")) by reflexivity. split; [exact (plain_check (lit "hello") eq_refl)|]. split; [vm_compute; reflexivity|exact Logic.I].
  - split; [split; reflexivity|]. unfold value_read. replace (mval_of (lit "-3")) with (xNeg (xNum 3)) by reflexivity. split; [cbn [wfx lvl]; split; lia|]. split; [vm_compute; reflexivity|exact Logic.I].
  - split; [split; reflexivity|]. split; [split; reflexivity|]. split; [apply plain_check; vm_compute; reflexivity|]. split; [vm_compute; split; [discriminate|reflexivity]|]. split; [exists (lit "Node"); exact (mc_described _ _ _ _ _ _ _ _ node_made)|].
    split; [apply shown_check; vm_compute; reflexivity|]. split; [discriminate|apply keys_check; vm_compute; reflexivity].
Qed.
Lemma apart_check a b : forallb (fun x => negb (existsb (str_eqb x) b)) a = true -> forall x : str, In x a -> ~ In x b.
Proof.
  intros H x I J. rewrite forallb_forall in H. specialize (H x I). assert (X : existsb (str_eqb x) b = true) by (apply existsb_exists; exists x; split; [exact J|apply str_eqb_refl]). rewrite X in H. discriminate H.
Qed.
Ltac apart := apply apart_check; vm_compute; reflexivity.
Lemma sample_named : named (module_nodes "Color").
Proof.
  split; [apply nodup_check; vm_compute; reflexivity|]. intros n I. destruct (sample_nodes _ _ I) as [->|[->|[->|[->|[->|[->|[->| ->]]]]]]]; try exact Logic.I.
  - split; [apply nodup_check; vm_compute; reflexivity|]. split; [apply nodup_check; vm_compute; reflexivity|]. apart.
  - split; [apply nodup_check; vm_compute; reflexivity|]. split; [apply nodup_check; vm_compute; reflexivity|]. apart.
  - apply nodup_check; vm_compute; reflexivity.
  - split; [apply nodup_check; vm_compute; reflexivity|]. split; [apply nodup_check; vm_compute; reflexivity|]. apart.
Qed.

(** the text, read and run by computation *)
Definition state_of (ls : list str) : option mst :=
  match logical None ls with
  | Some toks => match p_module 3000 toks with
                 | Some l => match exec (lit "0.10.2") l (start (lit "m") (lit "m.capnp")) with Ok st => Some st | Err _ => None end
                 | None => None
                 end
  | None => None
  end.
Definition global_attr (st : mst) (c a : string) : option mval :=
  match get (m_globals st) (lit c) with Some (VCls i) => match nth_error (m_heap st) i with Some k => attr k (lit a) | None => None end | _ => None end.
Definition sample_text (short : string) : list str := module_text floats nm_all module_header (module_nodes short).
Definition shows (st : mst) (c a : string) (v : mval) : bool :=
  match global_attr st c a, v with
  | Some (VInt x), VInt y => x =? y
  | Some (VCls x), VCls y => Nat.eqb x y
  | Some (VInst x k), VInst y l => Nat.eqb x y && (k =? l)
  | Some (VFun d _ _), VStr y => match d with None => str_eqb y [] | Some d => str_eqb d y end
  | Some (VStr x), VStr y => str_eqb x y
  | _, _ => false
  end.
Lemma sample_state : match state_of (sample_text "Color") with
  | Some st =>
      shows st "Node_Color" "green" (VInst 4 1) && shows st "Node" "Color" (VCls 4) && shows st "Node" "__capnpy_id__" (VInt 11713690927886871123) &&
      shows st "Node" "__static_data_size__" (VInt 4) && shows st "Node" "greeting" (VStr (lit "hello")) && shows st "Node" "low" (VInt (-3)) &&
      shows st "Node__tag__" "y" (VInst 6 1) && shows st "Node" "__tag__" (VCls 6) && shows st "Node" "__tag_offset__" (VInt 16) && shows st "Node" "G" (VStr (lit "staticmethod")) &&
      shows st "Node" "a" (VStr (lit "property")) && shows st "Node" "_key" (VStr []) && shows st "Node_g" "shortrepr" (VStr []) = true
  | None => False
  end.
Proof. vm_compute. reflexivity. Qed.
(** the enum nested in Node called G, like the constructor of its group g *)
Lemma hidden_state : match state_of (sample_text "G") with Some st => shows st "Node" "G" (VStr (lit "staticmethod")) = true | None => False end.
Proof. vm_compute. reflexivity. Qed.
Lemma state_runs ls st : state_of ls = Some st -> runs (lit "0.10.2") (lit "m") (lit "m.capnp") ls st.
Proof.
  unfold state_of. destruct (logical None ls) as [toks|] eqn:L; [|discriminate]. destruct (p_module 3000 toks) as [l|] eqn:P; [|discriminate].
  intros H. exists l. split; [exists toks, 3000%nat; split; assumption|]. destruct (exec _ l _) as [s|]; [now injection H as ->|discriminate].
Qed.
