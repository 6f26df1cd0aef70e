(** A module with the class of CtorSamples.node: its text, read and run *)
From Coq Require Import Strings.String.
From Verif Require FloatBits Names CtorSamples.
From Verif Require Import Base BaseFacts Spec Ptr Segment Builder Copy Struct List CopyList Case CaseFacts Loader Repr PyExpr
  Ctor PySyntax PySyntaxFacts PyPrint PyRun GenRun GenText ClassText TextSpec Properties_Text PyGroup KeyText.
From Coq Require Import Lists.List.
Local Notation length := Datatypes.length.
Local Open Scope string_scope.
Local Open Scope list_scope.
Local Open Scope Z_scope.

(** str() of floats: 0.0 and 1.5 are enough here *)
Definition members : list field := filter is_member (sn_fields CtorSamples.node).
Definition floats (b : Z) : str := if b =? 0 then lit "0.0" else lit "1.5".
Definition float_value (s : str) : Z := if str_eqb s (lit "0.0") then 0 else 4609434218613702656.
Definition nms (prefix n : string) : names :=
  mknames (lit "Other") (lit "Color") (if String.eqb n "n" then lit "Node_n" else lit "Node_g") (lit "_int16_list_item_type") (lit "x @0: text").
Definition node_text : list str := ClassText.class_text floats nms 4 (lit "Node") false CtorSamples.node.
(** the groups as classes *)
Definition g_node : struct_node := mksn 4 4 (Some 10) [CtorSamples.fp; CtorSamples.fq; CtorSamples.fr].
Definition n_node : struct_node := mksn 4 4 None [CtorSamples.fnull; CtorSamples.fval].
Definition g_text : list str := ClassText.class_text floats nms 4 (lit "Node_g") true g_node.
Definition n_text : list str := ClassText.class_text floats nms 4 (lit "Node_n") true n_node.
Definition parse (ls : list str) : list pstmt :=
  match logical None ls with
  | Some l => match p_block 2000 4 l with Some (b, []) => b | _ => [] end
  | None => []
  end.
Definition node_body : list pstmt := Eval vm_compute in parse node_text.
Definition n_body : list pstmt := Eval vm_compute in parse n_text.
Definition g_body : list pstmt := Eval vm_compute in parse g_text.
(** other methods come after these *)
Definition rest : list pstmt := [qDef None (lit "shortrepr") [(lit "self", None)] [qReturn (xConst CNone)]].
(** $Py.key(" a,t ,l") on Node, whose fields have the same names in the schema *)
Definition node_names : sfields := map (fun f => (lit (f_name f), f)) (sn_fields CtorSamples.node).
Definition node_key : list str := Eval vm_compute in match key_text 4 node_names (lit " a,t ,l") with Ok t => t | Err _ => [] end.
Definition node_rest : list pstmt := Eval vm_compute in (rest ++ parse node_key).
Definition w : world :=
  mkworld 4
    (fun c => if is c "Node" then node_body ++ node_rest else if is c "Node_n" then n_body ++ rest else if is c "Node_g" then g_body ++ rest else [])
    (fun c => if is c "Node" then Some 8 else if is c "Node_g" then Some 10 else None)
    (fun n => if among n ["Node"; "Node_n"; "Node_g"; "Other"; "Color"] then Some (XCls n)
              else if is n "_int16_list_item_type" then Some (XItem (ITPrim Fh)) else None)
    (fun _ _ => None)
    float_value.

(** the text of the class is read as these statements *)
Lemma node_reads : reads_as 4 node_text node_body.
Proof. eexists _, 2000%nat. split; [vm_compute; reflexivity|]. vm_compute. reflexivity. Qed.


Lemma defines_by c ls l : reads_as 4 ls l ->
  Forall (fun q => match q with qDef d n ps b => last_def (w_body w c) n = Some (d, ps, b) | _ => True end) l -> defines w c 4 ls.
Proof. intros R F. exists l. split; [exact R|]. intros d n ps b I. rewrite Forall_forall in F. exact (F _ I). Qed.
Ltac by_reading :=
  match goal with |- defines w ?c 4 ?ls =>
    apply (defines_by c ls (parse ls));
      [eexists _, 2000%nat; split; [vm_compute; reflexivity|vm_compute; reflexivity]
      |let l := eval vm_compute in (parse ls) in change (parse ls) with l; repeat (apply Forall_cons; [vm_compute; reflexivity|]); apply Forall_nil]
  end.
Lemma node_defines f : In f (sn_fields CtorSamples.node) -> defines w (lit "Node") 4 (field_text floats 4 (nms "" (f_name f)) f).
Proof.
  intros I. cbn [CtorSamples.node sn_fields In] in I. decompose [or] I; try contradiction; subst f; by_reading.
Qed.
Lemma null_defines : defines w (lit "Node_n") 4 (field_text floats 4 (nms "" "is_null") CtorSamples.fnull).
Proof. by_reading. Qed.
Lemma value_defines : defines w (lit "Node_n") 4 (field_text floats 4 (nms "" "value") CtorSamples.fval).
Proof. by_reading. Qed.
Lemma w_keeps c : In c ["Node"; "Node_n"; "Node_g"; "Other"; "Color"] -> keeps w (lit c).
Proof.
  intros I n J. unfold runtime_names, struct_methods in J. cbn [app In] in I, J.
  decompose [or] I; try contradiction; subst c; decompose [or] J; try contradiction; subst n; vm_compute; reflexivity.
Qed.
Lemma means_itself c : In c ["Node"; "Node_n"; "Node_g"; "Other"; "Color"] -> means_class w (lit c) (lit c).
Proof.
  intros I. exists (xVar (lit c)). cbn [In] in I. decompose [or] I; try contradiction; subst c; (split; [apply ct_name; [split; reflexivity|reflexivity|discriminate]|intros [|dp] st; reflexivity]).
Qed.
Lemma node_refers n ord disc t off ex d : In (FSlot n ord disc t off ex d) (sn_fields CtorSamples.node) -> py_name (lit n) /\ refers w floats (nms "" n) t d (lit "Other").
Proof.
  intros I. cbn [CtorSamples.node sn_fields In] in I. unfold CtorSamples.fa, CtorSamples.fb, CtorSamples.fc, CtorSamples.fe, CtorSamples.ff, CtorSamples.ft,
    CtorSamples.fl, CtorSamples.fs_, CtorSamples.fx, CtorSamples.fy, CtorSamples.fz, CtorSamples.fg, CtorSamples.fn in I.
  decompose [or] I; try contradiction; try discriminate; match goal with H : FSlot _ _ _ _ _ _ _ = _ |- _ => injection H as <- <- <- <- <- <- <- end;
    (split; [split; reflexivity|]); cbn [refers]; try exact Logic.I.
  - exists (lit "Color"). split; [apply (means_itself "Color"); cbn; tauto|apply (w_keeps "Color"); cbn; tauto].
  - left. split; [split; vm_compute; reflexivity|reflexivity].
  - exists (xVar (lit "_int16_list_item_type")). split; [apply it_cls, ct_name; [split; reflexivity|reflexivity|discriminate]|intros [|dp] st; reflexivity].
  - split; [apply (means_itself "Other"); cbn; tauto|apply (w_keeps "Other"); cbn; tauto].
Qed.

(** obj.foo, for each of the slots of the class and any instance: the theorem
    applies *)
Lemma node_getters o n ord disc t off ex d s : let f := FSlot n ord disc t off ex d in In f (sn_fields CtorSamples.node) ->
  gives (r_attr (rt w 2) (XObj (lit "Node") o) (lit n) s) o (lit "Other") (get_slot o (Some 8) f).
Proof.
  intros f I. destruct (node_refers n ord disc t off ex d I) as (N & Hr).
  exact (C80_getter w floats (nms "" n) (lit "Node") (lit "Other") o 4 n ord disc t off ex d 0 s N Hr (w_keeps "Node" ltac:(cbn; tauto)) (node_defines f I)).
Qed.
Lemma node_nullable o s : gives (r_attr (rt w 3) (XObj (lit "Node") o) (lit "n") s) o (lit "Other") (get_nullable o (Some 8) CtorSamples.fn).
Proof.
  refine (C80_nullable w floats (nms "" "n") (lit "Node") (lit "Node_n") o 4 "n" 12 None None [CtorSamples.fnull; CtorSamples.fval] CtorSamples.fnull CtorSamples.fval 4 4
    (nms "" "is_null") (nms "" "value") (lit "Other") (lit "Other") 0 s _ _ _ _ _ _ _ _ _ _ _); try reflexivity.
  - split; reflexivity.
  - apply (means_itself "Node_n"). cbn. tauto.
  - apply (w_keeps "Node_n"). cbn. tauto.
  - apply (w_keeps "Node"). cbn. tauto.
  - apply (node_defines CtorSamples.fn). cbn. tauto.
  - cbn [CtorSamples.fnull CtorSamples.fval refers]. repeat split; discriminate.
  - exact null_defines.
  - exact value_defines.
Qed.
(** and the instance made by running the text of the constructor, with the
    values of CtorSamples, gives them back *)
Definition made : res (xv * st) :=
  r_call (rt w 5) (XCls (lit "Node")) [XV (PInt 7)]
    [(lit "c", XV (PBool true)); (lit "e", XV (PInt 2)); (lit "t", XV (PBytes (map Zb [97; 98; 99]))); (lit "y", XV (PBytes [Zb 104]));
     (lit "n", XV (PInt 9))] (mkst [] None).
Definition look (n : string) : res xv := do (v, s) <- made; do (v, s) <- r_attr (rt w 5) v (lit n) s; Ok v.
Lemma made_values :
  look "a" = Ok (XV (PInt 7)) /\ look "b" = Ok (XV (PBool true)) /\ look "c" = Ok (XV (PBool true)) /\ look "e" = Ok (XV (PInt 2)) /\
  look "t" = Ok (XV (PBytes (map Zb [97; 98; 99]))) /\ look "y" = Ok (XV (PBytes [Zb 104])) /\ look "x" = Err ValueError /\
  look "n" = Ok (XV (PInt 9)) /\ look "s" = Ok (XV PNone) /\ look "l" = Ok (XV PNone).
Proof. vm_compute. repeat split. Qed.
