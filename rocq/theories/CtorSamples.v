(** A struct with fields of every kind, and calls of its constructor *)
From Verif Require Import Base Spec BaseFacts Ptr Segment Builder Copy Enc EncFacts
  Struct List Query CopyList ArgSpec Ctor CtorSpec CtorStore CtorFacts Samples.
From Coq Require Import String ZifyBool.
From Coq Require Import Lists.List.
Local Notation length := Datatypes.length.
Open Scope string_scope.
Open Scope Z_scope.
Ltac Zify.zify_post_hook ::= Z.div_mod_to_equations.

(** struct Node {
      a @0 :Int32 = 42;  b @1 :Bool = true;  c @2 :Bool;  e @3 :Enum;
      f @4 :Float64;  t @5 :Text;  l @6 :List(Int16);  s @7 :Struct;
      union { x @8 :Int16;  y @9 :Text;  z @10 :Void; }
      g :group { union { p @11 :Int32; q @12 :Void; }  r @13 :UInt8; }
      n :group $Py.nullable { isNull @14 :UInt8; value @15 :Int32; }
    } *)
Definition fa := FSlot "a" 0 None (TPrim Fi) 0 true 42.
Definition fb := FSlot "b" 1 None TBool 32 true 1.
Definition fc := FSlot "c" 2 None TBool 33 false 0.
Definition fe := FSlot "e" 3 None TEnum 3 false 0.
Definition ff := FSlot "f" 4 None TFloat64 1 false 0.
Definition ft := FSlot "t" 5 None TText 0 false 0.
Definition fl := FSlot "l" 6 None (TList (ITPrim Fh)) 1 false 0.
Definition fs_ := FSlot "s" 7 None TStruct 2 false 0.
Definition fx := FSlot "x" 8 (Some 0) (TPrim Fh) 9 false 0.
Definition fy := FSlot "y" 9 (Some 1) TText 3 false 0.
Definition fz := FSlot "z" 10 (Some 2) TVoid 0 false 0.
Definition fp := FSlot "p" 0 (Some 0) (TPrim Fi) 6 false 0.
Definition fq := FSlot "q" 1 (Some 1) TVoid 0 false 0.
Definition fr := FSlot "r" 2 None (TPrim FB) 22 false 0.
Definition fg := FGroup "g" 11 None false (Some 10) [fp; fq; fr].
Definition fnull := FSlot "is_null" 0 None (TPrim FB) 23 false 0.
Definition fval := FSlot "value" 1 None (TPrim Fi) 7 false 0.
Definition fn := FGroup "n" 12 None true None [fnull; fval].
Definition node : struct_node := mksn 4 4 (Some 8) [fa; fb; fc; fe; ff; ft; fl; fs_; fx; fy; fz; fg; fn].

Ltac apart_tac :=
  intros l H1 H2; cbn in H1, H2; unfold bits in H1, H2;
  repeat match goal with
  | H : _ \/ _ |- _ => destruct H
  | H : exists _, _ |- _ => destruct H
  | H : _ /\ _ |- _ => destruct H
  | H : False |- _ => destruct H
  end; subst; try discriminate;
  repeat match goal with H : LBit _ = LBit _ |- _ => injection H as H | H : LPtr _ = LPtr _ |- _ => injection H as H end; lia.
Ltac pairs_tac :=
  match goal with
  | |- ForallOrdPairs _ [] => constructor
  | |- ForallOrdPairs _ (_ :: _) => constructor; [repeat (constructor; [first [left; split; reflexivity|right; apart_tac]|]); constructor|pairs_tac]
  end.

Lemma scope_g : scope_ok 4 (Some 10) [fp; fq; fr].
Proof.
  split; [pairs_tac|]. split; [intros u' E; injection E as <-; lia|]. split; [discriminate|]. split.
  - intros f l I. cbn [In] in I. decompose [or] I; subst; try contradiction; revert l; apart_tac.
  - split; [cbn; repeat constructor; lia|]. cbn. repeat constructor; cbn; lia.
Qed.

Lemma scope_n : scope_ok 4 None [fnull; fval].
Proof.
  split; [pairs_tac|]. split; [discriminate|]. split; [reflexivity|]. split; [intros f l I []|].
  cbn. split; constructor.
Qed.

Lemma node_ok : layout_ok node.
Proof.
  constructor.
  - cbn. lia.
  - cbn. lia.
  - cbn [sn_ds sn_utag sn_fields node]. split; [pairs_tac|]. split; [intros u' E; injection E as <-; lia|]. split; [discriminate|]. split.
    + intros f l I. cbn [In] in I. decompose [or] I; subst; try contradiction; revert l; apart_tac.
    + split; [cbn; repeat constructor; lia|]. cbn. repeat constructor; cbn; lia.
  - cbn [sn_ds sn_ps sn_fields node all_of].
    repeat match goal with |- _ /\ _ => split | |- True => exact I end;
      try (cbn [field_ok slot_ok fa fb fc fe ff ft fl fs_ fx fy fz fp fq fr fnull fval];
           unfold slot_ok, in_fmt; cbn [fsize fmin fmax]; repeat split; try lia; try discriminate; auto; fail).
    + cbn [field_ok fg]. split; [exact scope_g|]. split; [|reflexivity]. cbn [all_of].
      repeat match goal with |- _ /\ _ => split | |- True => exact I end;
        unfold fp, fq, fr, slot_ok, in_fmt; cbn [fsize fmin fmax]; repeat split; try lia; try discriminate; auto.
    + cbn [field_ok fn]. split; [exact scope_n|]. split.
      * cbn [all_of]. repeat match goal with |- _ /\ _ => split | |- True => exact I end;
          unfold fnull, fval, slot_ok, in_fmt; cbn [fsize fmin fmax]; repeat split; try lia; try discriminate; auto.
      * split; [discriminate|]. unfold nullable_ok, fnull, fval. repeat eexists.
  - assert (D : forall l : list string, nodup String.string_dec l = l -> NoDup l) by (intros l <-; apply NoDup_nodup).
    apply D. vm_compute. reflexivity.
  - intros f If _. cbn in If. decompose [or] If; try contradiction; subst f; split; discriminate.
Qed.

(** Node(a=7, c=True, e=2, t=b'abc', l=[1, -2], s=sobj, y=b'abc', g=(3, _undefined, 255), n=0) *)
Definition sobj : obj := {| o_seg := {| sbuf := le_enc 8 5; soffs := None |}; o_off := 0; o_ptrs := 8; o_ds := 1; o_ps := 0 |}.
Lemma sobj_den : obj_val sobj (le_enc 8 5) [].
Proof.
  unfold obj_val, obj_den. cbn [sobj o_ptrs o_off o_ds o_ps o_seg]. repeat split; try lia.
  - change (Z.to_nat 0) with 0%nat. constructor. vm_compute. split; discriminate.
  - vm_compute. discriminate.
Qed.

Definition kw1 : list (string * pyval) :=
  [("a", PInt 7); ("c", PBool true); ("e", PInt 2); ("t", PBytes abc); ("l", PSeq [PInt 1; PInt (-2)]); ("s", PObj sobj);
   ("y", PBytes abc); ("g", PSeq [PInt 3; PUndef; PInt 255]); ("n", PInt 0)].
Definition vals1 (n : string) : list value :=
  if String.eqb n "t" then [text_value true abc]
  else if String.eqb n "y" then [text_value true abc]
  else if String.eqb n "l" then [VList 3 2 (concat (map (fenc Fh) [1; -2]))]
  else if String.eqb n "s" then [VStruct (le_enc 8 5) []]
  else [].

Ltac ival z := exists z; split; [left; reflexivity|unfold in_fmt; cbn; lia].

Lemma call1 : call_ok 4 (filter visible (sn_fields node)) kw1 vals1.
Proof.
  constructor.
  - intros n x I. apply (in_map fst) in I. cbn [map fst kw1] in I.
    assert (S : In n (map f_name (filter visible (sn_fields node)))) by (revert I; cbn [fst]; cbn; tauto).
    apply in_map_iff in S. destruct S as (f & <- & If). eauto.
  - intros f x I. change (filter visible (sn_fields node)) with (sn_fields node) in I. cbn [node sn_fields In] in I.
    decompose [or] I; try contradiction; subst f;
      match goal with |- assoc kw1 ?n = _ -> _ => let r := eval vm_compute in (assoc kw1 n) in change (assoc kw1 n) with r end;
      intros E; try discriminate E; injection E as <-; (split; [intros _; discriminate|]).
    + split; [ival 7|reflexivity].
    + split; [exists true; left; reflexivity|reflexivity].
    + split; [ival 2|reflexivity].
    + exists (text_value true abc). split; [reflexivity|]. split; [reflexivity|]. vm_compute. repeat split; discriminate.
    + exists (VList 3 2 (concat (map (fenc Fh) [1; -2]))). split; [reflexivity|]. split; [|split].
      * right. exists [PInt 1; PInt (-2)]. split; [reflexivity|]. split; [reflexivity|]. exists [1; -2]. split; [|reflexivity].
        repeat constructor; unfold in_fmt; cbn; lia.
      * vm_compute. repeat split; discriminate.
      * cbn. lia.
    + exists (VStruct (le_enc 8 5) []). split; [reflexivity|]. split; [exists (le_enc 8 5), []; split; [exact sobj_den|reflexivity]|].
      split; [vm_compute; repeat split; discriminate|cbn; lia].
    + exists (text_value true abc). split; [reflexivity|]. split; [reflexivity|]. vm_compute. repeat split; discriminate.
    + exists [PInt 3; PUndef; PInt 255]. split; [reflexivity|]. split; [|vm_compute; lia].
      cbn [args_of visible fp fq fr is_member f_disc].
      exists (PInt 3), [PUndef; PInt 255], [], []. split; [reflexivity|]. split; [reflexivity|]. split.
      2:{ right. split; [discriminate|]. split; [ival 3|reflexivity]. }
      exists PUndef, [PInt 255], [], []. split; [reflexivity|]. split; [reflexivity|]. split.
      2:{ left. auto. }
      exists (PInt 255), [], [], []. split; [reflexivity|]. split; [reflexivity|]. split; [split; reflexivity|].
      right. split; [discriminate|]. split; [ival 255|reflexivity].
    + right. split; [discriminate|]. split; [ival 0|reflexivity].
  - intros f I. change (filter visible (sn_fields node)) with (sn_fields node) in I. cbn [node sn_fields In] in I.
    decompose [or] I; try contradiction; subst f;
      match goal with |- assoc kw1 ?n = _ -> _ => let r := eval vm_compute in (assoc kw1 n) in change (assoc kw1 n) with r end;
      intros E; try discriminate E; intros D; try discriminate D; cbn; discriminate.
Qed.

Lemma call1_members : (length (members_given (filter visible (sn_fields node)) kw1) <= 1)%nat.
Proof. vm_compute. lia. Qed.
Lemma call1_size : call_size node kw1 vals1 <= 2 ^ 32.
Proof. vm_compute. discriminate. Qed.
