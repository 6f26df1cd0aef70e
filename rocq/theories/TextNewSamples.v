(** The constructors of the class of CtorSamples.node: their text, read and run *)
From Coq Require Import Strings.String.
From Verif Require FloatBits Names CtorSamples CtorSpec.
From Verif Require Import Base BaseFacts Spec Ptr Segment Builder Copy Struct List CopyList Case CaseFacts Loader Repr PyExpr
  Ctor PySyntax PySyntaxFacts PyPrint PyRun GenRun GenText TextSpec Properties_Text Properties_TextNew TextSamples.
From Coq Require Import Lists.List.
Local Notation length := Datatypes.length.
Local Open Scope string_scope.
Local Open Scope list_scope.
Local Open Scope Z_scope.

Ltac unfold_fields H :=
  unfold CtorSamples.fa, CtorSamples.fb, CtorSamples.fc, CtorSamples.fe, CtorSamples.ff, CtorSamples.ft,
    CtorSamples.fl, CtorSamples.fs_, CtorSamples.fx, CtorSamples.fy, CtorSamples.fz, CtorSamples.fg, CtorSamples.fn,
    CtorSamples.fp, CtorSamples.fq, CtorSamples.fr, CtorSamples.fnull, CtorSamples.fval in H.

Lemma slot_described union prefix n ord disc t off ex d c :
  py_name (lit n) -> upper_or_underscore (lit n) = false -> (disc <> None -> union = true) -> t <> TAny ->
  refers w floats (nms prefix n) t d c -> described w floats nms union prefix (FSlot n ord disc t off ex d).
Proof.
  intros N U M A R. cbn [described f_name]. split; [exact N|]. split; [exact U|]. split.
  - unfold is_member. cbn [f_disc]. destruct disc; [intros _; apply M; discriminate|discriminate].
  - split; [exists c; exact R|]. intros E. contradiction.
Qed.
Lemma w_described : node_described w floats nms CtorSamples.node.
Proof.
  apply mknode.
  - intros f I _. destruct f as [n ord disc t off ex d|n ord disc nullable u fs].
    + destruct (node_refers n ord disc t off ex d I) as (N & R).
      cbn [CtorSamples.node sn_fields sn_utag In] in I |- *. unfold_fields I.
      decompose [or] I; try contradiction; try discriminate; match goal with H : FSlot _ _ _ _ _ _ _ = _ |- _ => injection H as <- <- <- <- <- <- <- end;
        (apply (slot_described _ _ _ _ _ _ _ _ _ (lit "Other")); [exact N|reflexivity|intros _; reflexivity|discriminate|exact R]).
    + cbn [CtorSamples.node sn_fields sn_utag In] in I |- *. unfold_fields I.
      decompose [or] I; try contradiction; try discriminate; match goal with H : FGroup _ _ _ _ _ _ = _ |- _ => injection H as <- <- <- <- <- <- end;
        cbn [described f_name]; (split; [split; reflexivity|]); (split; [reflexivity|]); (split; [discriminate|]); (split; [reflexivity|]); split.
      * discriminate.
      * repeat match goal with |- _ /\ _ => split end; try exact Logic.I; intros _; apply (slot_described _ _ _ _ _ _ _ _ _ (lit "Other"));
          try (split; reflexivity); try reflexivity; try discriminate; exact Logic.I.
      * intros _. eexists _, _. split; [reflexivity|]. repeat split.
      * repeat match goal with |- _ /\ _ => split end; try exact Logic.I; intros _; apply (slot_described _ _ _ _ _ _ _ _ _ (lit "Other"));
          try (split; reflexivity); try reflexivity; try discriminate; try exact Logic.I; congruence.
  - assert (D : forall l : list string, nodup String.string_dec l = l -> NoDup l) by (intros l <-; apply NoDup_nodup).
    apply D. vm_compute. reflexivity.
  - intros f I _. cbn [CtorSamples.node sn_fields In] in I. decompose [or] I; try contradiction; subst f; (split; [discriminate|intros _; discriminate]).
Qed.
Lemma w_new : defines w (lit "Node") 4 (new_text floats nms 4 CtorSamples.node).
Proof. by_reading. Qed.
Lemma w_init : defines w (lit "Node") 4 (init_text floats 4 (lit "Node") CtorSamples.node).
Proof. by_reading. Qed.
Lemma w_union tag : In tag members -> defines w (lit "Node") 4 (new_union_text floats 4 (lit "Node") CtorSamples.node tag).
Proof.
  intros I. change members with [CtorSamples.fx; CtorSamples.fy; CtorSamples.fz] in I. cbn [In] in I. decompose [or] I; try contradiction; subst tag; by_reading.
Qed.

(** Node(...), for all the arguments *)
Lemma node_init args kws s :
  makes (calls w 2 (XCls (lit "Node")) args kws s) (lit "Node")
    (with_args (map f_name (filter visible (sn_fields CtorSamples.node))) args kws (ctor 4 CtorSamples.node)).
Proof.
  exact (C81_init w floats nms (lit "Node") (lit "Node") CtorSamples.node 4 args kws 0 s w_described (means_itself "Node" ltac:(cbn; tauto)) w_new w_init).
Qed.
(** Node.new_x(...), Node.new_y(...), Node.new_z(...) *)
Lemma node_new_union tag args kws s : In tag members ->
  let mine f := negb (is_member f) || same_field f (f_name tag, f_order tag) in
  makes (calls_method w 2 (XCls (lit "Node")) (lit "new_" ++ lit (f_name tag)) args kws s) (lit "Node")
    (with_args (map f_name (filter mine (filter visible (sn_fields CtorSamples.node)))) args kws (ctor_union 4 CtorSamples.node tag)).
Proof.
  intros I. apply filter_In in I as J.
  exact (C81_new_union w floats nms (lit "Node") (lit "Node") CtorSamples.node tag 4 args kws 0 s w_described (means_itself "Node" ltac:(cbn; tauto))
    (w_keeps "Node" ltac:(cbn; tauto)) w_new (w_union tag I) (proj1 J) (proj2 J)).
Qed.
(** Node.G(...) *)
Lemma node_like : defines w (lit "Node") 4 (like_text floats 4 (lit "g") [CtorSamples.fp; CtorSamples.fq; CtorSamples.fr]).
Proof. by_reading. Qed.
Lemma node_group args kws s :
  calls_method w 1 (XCls (lit "Node")) (lit "G") args kws s =
  (do x <- with_args ["p"; "q"; "r"] args kws (group_ctor [CtorSamples.fp; CtorSamples.fq; CtorSamples.fr]); Ok (XV x, s)).
Proof.
  refine (C81_group w floats nms (lit "Node") "g" 11 None (Some 10) [CtorSamples.fp; CtorSamples.fq; CtorSamples.fr] true "" 4 args kws 0 s _ _ _ node_like).
  - apply (nd_fields _ _ _ _ w_described CtorSamples.fg); [cbn; tauto|reflexivity].
  - assert (D : forall l : list string, nodup String.string_dec l = l -> NoDup l) by (intros l <-; apply NoDup_nodup). apply D. reflexivity.
  - split; reflexivity.
Qed.
(** Node(a=7, c=True, e=2, t=b'abc', l=[1, -2], s=sobj, y=b'abc', g=(3, _undefined, 255), n=0), and its attributes *)
Lemma node_roundtrip s : exists v s1 o, calls w 2 (XCls (lit "Node")) [] CtorSamples.kw1 s = Ok (v, s1) /\ object (lit "Node") o v s1 /\
  CtorSpec.scope_reads o (Some 8) (sn_fields CtorSamples.node) (map (CtorSpec.arg_for CtorSamples.kw1) (filter visible (sn_fields CtorSamples.node))) /\
  forall n ord disc t off ex d, let f := FSlot n ord disc t off ex d in In f (sn_fields CtorSamples.node) ->
    gives (r_attr (rt w 2) v (lit n) s1) o (lit "Other") (get_slot o (Some 8) f).
Proof.
  destruct (C81_roundtrip w floats nms (lit "Node") (lit "Node") CtorSamples.node 4 CtorSamples.kw1 CtorSamples.vals1 0 s w_described (means_itself "Node" ltac:(cbn; tauto))
    (w_keeps "Node" ltac:(cbn; tauto)) w_new w_init ltac:(cbn; lia) CtorSamples.node_ok eq_refl CtorSamples.call1 CtorSamples.call1_members CtorSamples.call1_size)
    as (v & s1 & o & E & O & R & G).
  exists v, s1, o. split; [exact E|]. split; [exact O|]. split; [exact R|].
  intros n ord disc t off ex d f I. apply (G n ord disc t off ex d (nms "" n)); [exact I| |apply node_refers in I; apply I|exact (node_defines f I)].
  clear -I. cbn [CtorSamples.node sn_fields In] in I. unfold f in I. unfold_fields I. decompose [or] I; try contradiction; try discriminate;
    match goal with H : FSlot _ _ _ _ _ _ _ = _ |- _ => injection H as <- <- <- <- <- <- <- end; reflexivity.
Qed.
