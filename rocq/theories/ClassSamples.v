(** Classes made from their text: those of capnpy/schema.py and annotate.py,
    and the class of CtorSamples.node with its groups *)
From Coq Require Import Strings.String.
From Verif Require FloatBits Names CtorSamples CtorSpec.
From Verif Require Import Base BaseFacts Spec Ptr Segment Builder Copy Struct List CopyList Case CaseFacts Loader Repr PyExpr
  Ctor PySyntax PySyntaxFacts PyPrint PyRun GenRun GenText ClassText SchemaText TextSpec ClassSpec Properties_Text Properties_TextNew TextSamples TextNewSamples Properties_ClassText.
From Coq Require Import Lists.List.
Local Notation length := Datatypes.length.
Local Open Scope string_scope.
Local Open Scope list_scope.
Local Open Scope Z_scope.

(** the model writes the text of the modules that the compiler has generated
    for itself, word for word *)
Fixpoint same_text (a b : list str) : bool :=
  match a, b with [], [] => true | x :: a, y :: b => str_eqb x y && same_text a b | _, _ => false end.
Lemma schema_texts : forallb (fun x => match x with (n, g, sn, t, txt) =>
  same_text (ClassText.class_text floats (names_in t) 4 (lit n) g sn) (map lit txt) end) texts = true.
Proof. vm_compute. reflexivity. Qed.
Lemma schema_names : forallb (fun x => match x with (n, g, sn, _, _) =>
  let l := class_methods g sn in
  Nat.eqb (length (nodup (list_eq_dec Z.eq_dec) l)) (length l) && forallb (fun n => negb (existsb (str_eqb n) (map lit runtime_names))) l end) texts = true.
Proof. vm_compute. reflexivity. Qed.

Lemma reads_parse ls : forall lg, logical None ls = Some lg -> forall b, p_block 2000 4 lg = Some (b, []) -> reads_as 4 ls b.
Proof. intros lg E b P. exists lg, 2000%nat. auto. Qed.
Ltac from_parse l rest :=
  split; [reflexivity|]; exists [], l, rest; split; [eapply reads_parse; [vm_compute; reflexivity|vm_compute; reflexivity]|]; split; [reflexivity|];
  intros n J; cbn in J;
  repeat (destruct J as [<-|J]; [let X := fresh in split; intros X; vm_compute in X; intuition discriminate|]); destruct J.
Lemma node_from : from_text w (lit "Node") false CtorSamples.node 4 node_text. Proof. from_parse node_body node_rest. Qed.
Lemma g_from : from_text w (lit "Node_g") true g_node 4 g_text. Proof. from_parse g_body rest. Qed.
Lemma n_from : from_text w (lit "Node_n") true n_node 4 n_text. Proof. from_parse n_body rest. Qed.
Lemma apart_check group sn :
  (let l := class_methods group sn in
   NoDup l /\ forallb (fun n => negb (existsb (str_eqb n) (map lit runtime_names))) l = true) -> names_apart group sn.
Proof.
  intros (N & F). split; [exact N|]. intros n I J. rewrite forallb_forall in F. specialize (F n I).
  assert (X : existsb (str_eqb n) (map lit runtime_names) = true) by (apply existsb_exists; exists n; split; [exact J|apply str_eqb_refl]).
  rewrite X in F. discriminate F.
Qed.
Lemma nodup_check (l : list str) : nodup (list_eq_dec Z.eq_dec) l = l -> NoDup l. Proof. intros <-. apply NoDup_nodup. Qed.
Lemma node_apart : names_apart false CtorSamples.node. Proof. apply apart_check. split; [apply nodup_check|]; vm_compute; reflexivity. Qed.
Lemma g_apart : names_apart true g_node. Proof. apply apart_check. split; [apply nodup_check|]; vm_compute; reflexivity. Qed.
Lemma n_apart : names_apart true n_node. Proof. apply apart_check. split; [apply nodup_check|]; vm_compute; reflexivity. Qed.


Lemma node_fields f union : In f (sn_fields CtorSamples.node) -> union = true -> exists c', field_refers w floats nms union f c'.
Proof.
  intros I Eu. pose proof I as J. destruct f as [n o d t off e v|n o d nl u fs].
  - exists (lit "Other"). unfold field_refers. exact (node_refers n o d t off e v I).
  - cbn [CtorSamples.node sn_fields In] in I. unfold_fields I.
    decompose [or] I; try contradiction; try discriminate; match goal with H : FGroup _ _ _ _ _ _ = _ |- _ => injection H as <- <- <- <- <- <- end.
    + exists (lit "Node_g"). split; [split; reflexivity|]. split; [apply (means_itself "Node_g"); cbn; tauto|]. split; [apply (w_keeps "Node_g"); cbn; tauto|].
      intros _. split; [split; reflexivity|]. split.
      * assert (D : forall l : list string, nodup String.string_dec l = l -> NoDup l) by (intros l <-; apply NoDup_nodup). apply D. reflexivity.
      * subst union. exact (nd_fields _ _ _ _ w_described CtorSamples.fg J eq_refl).
    + exists (lit "Node_n"). split; [split; reflexivity|]. split; [apply (means_itself "Node_n"); cbn; tauto|]. split; [apply (w_keeps "Node_n"); cbn; tauto|]. discriminate.
Qed.
Ltac numbered_tac :=
  split; [repeat (apply NoDup_cons; [cbn; intuition discriminate|]); apply NoDup_nil|];
  intros f d I E; cbn in I; decompose [or] I; try contradiction; subst f; injection E as <-; cbn; lia.
Lemma node_made : made_class w floats nms 4 (lit "Node") (lit "Node") false CtorSamples.node.
Proof.
  apply mkmade; [|exact node_apart|exact node_from]. apply mkcd.
  - apply (means_itself "Node"). cbn. tauto.
  - intros f I. exact (node_fields f true I eq_refl).
  - intros _. exact w_described.
  - split; [|discriminate]. numbered_tac.
Qed.
Lemma g_made : made_class w floats nms 4 (lit "Node_g") (lit "Node_g") true g_node.
Proof.
  apply mkmade; [|exact g_apart|exact g_from]. apply mkcd.
  - apply (means_itself "Node_g"). cbn. tauto.
  - intros f I. exists []. cbn in I. decompose [or] I; try contradiction; subst f; (split; [split; reflexivity|exact Logic.I]).
  - discriminate.
  - split; [|discriminate]. numbered_tac.
Qed.
Lemma n_made : made_class w floats nms 4 (lit "Node_n") (lit "Node_n") true n_node.
Proof.
  apply mkmade; [|exact n_apart|exact n_from]. apply mkcd.
  - apply (means_itself "Node_n"). cbn. tauto.
  - intros f I. exists []. cbn in I. decompose [or] I; try contradiction; subst f; (split; [split; reflexivity|exact Logic.I]).
  - discriminate.
  - split; [|reflexivity]. numbered_tac.
Qed.
Lemma class_roundtrip s : exists v s1 o, calls w 2 (XCls (lit "Node")) [] CtorSamples.kw1 s = Ok (v, s1) /\ object (lit "Node") o v s1 /\
  CtorSpec.scope_reads o (Some 8) (sn_fields CtorSamples.node) (map (CtorSpec.arg_for CtorSamples.kw1) (filter visible (sn_fields CtorSamples.node))) /\
  forall n ord disc t off ex d, let f := FSlot n ord disc t off ex d in In f (sn_fields CtorSamples.node) -> visible f = true -> exists c',
    gives (r_attr (rt w 2) v (lit n) s1) o c' (get_slot o (Some 8) f).
Proof.
  exact (C82_roundtrip w floats nms 4 (lit "Node") (lit "Node") CtorSamples.node CtorSamples.kw1 CtorSamples.vals1 0 s node_made
    ltac:(cbn; lia) CtorSamples.node_ok CtorSamples.call1 CtorSamples.call1_members CtorSamples.call1_size).
Qed.
Lemma class_nullable o s : exists cv, gives (r_attr (rt w 3) (XObj (lit "Node") o) (lit "n") s) o cv (get_nullable o (Some 8) CtorSamples.fn).
Proof.
  refine (C82_nullable w floats nms 4 (lit "Node") (lit "Node") false CtorSamples.node o "n" 12 None None [CtorSamples.fnull; CtorSamples.fval] nms 4 (lit "Node_n") (lit "Node_n") n_node CtorSamples.fnull CtorSamples.fval 0 s
    node_made _ (means_itself "Node_n" ltac:(cbn; tauto)) n_made eq_refl eq_refl eq_refl eq_refl _).
  - cbn. tauto.
  - split; [discriminate|reflexivity].
Qed.
(** obj.g.p: a view, and then its attribute *)
Lemma class_group o s : r_attr (rt w 1) (XObj (lit "Node") o) (lit "g") s =
  (do x <- get_group o (Some 8) CtorSamples.fg; Ok (XNew (lit "Node_g"), mkst (s_buf s) (Some x))).
Proof.
  apply (C82_group w floats nms 4 (lit "Node") (lit "Node") false CtorSamples.node o "g" 11 None false (Some 10) [CtorSamples.fp; CtorSamples.fq; CtorSamples.fr] (lit "Node_g") 0 s node_made).
  - cbn. tauto.
  - apply (means_itself "Node_g"). cbn. tauto.
  - apply (w_keeps "Node_g"). cbn. tauto.
Qed.
Lemma class_g_p o s : exists c', gives (r_attr (rt w 3) (XObj (lit "Node_g") o) (lit "p") s) o c' (get_slot o (Some 10) CtorSamples.fp).
Proof.
  destruct (C82_slot w floats nms 4 (lit "Node_g") (lit "Node_g") true g_node o "p" 0 (Some 0) (TPrim Fi) 6 false 0 0 s g_made ltac:(cbn; tauto)) as (c' & _ & G & _).
  exists c'. exact G.
Qed.
