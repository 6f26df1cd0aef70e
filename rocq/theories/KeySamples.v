(** The class Node of ClassSamples.v with $Py.key(" a,t ,l") *)
From Coq Require Import Strings.String.
From Verif Require FloatBits Names CtorSamples CtorSpec.
From Verif Require Import Base BaseFacts Spec Ptr Segment Builder Copy Struct List CopyList Case CaseFacts Loader Repr PyExpr
  Ctor PySyntax PySyntaxFacts PyPrint PyRun GenRun GenText ClassText TextSpec ClassSpec Properties_Text Properties_TextNew TextSamples TextNewSamples
  Properties_ClassText PyGroup KeyText Properties_KeyText ClassSamples.
From Coq Require Import Lists.List.
Local Notation length := Datatypes.length.
Local Open Scope string_scope.
Local Open Scope list_scope.
Local Open Scope Z_scope.

Lemma node_key_text : key_text 4 node_names (lit " a,t ,l") = Ok [lit "    "; lit "    def _key(self):"; lit "        return (self.a, self.t, self.l,)"].
Proof. vm_compute. reflexivity. Qed.
Lemma node_keyed : keyed_class w floats nms 4 (lit "Node") (lit "Node") false CtorSamples.node node_names (lit " a,t ,l").
Proof.
  apply mkkeyed; [exact node_made|reflexivity|]. exists node_key. split; [vm_compute; reflexivity|]. by_reading.
Qed.
Lemma node_has_key o s :
  match key_tuple o (Some 8) [CtorSamples.fa; CtorSamples.ft; CtorSamples.fl] with
  | Ok gs => exists vs s', all_items gs = Some vs /\ calls_method w 4 (XObj (lit "Node") o) (lit "_key") [] [] s = Ok (XV (PSeq vs), s')
  | Err e => calls_method w 4 (XObj (lit "Node") o) (lit "_key") [] [] s = Err e
  end.
Proof.
  refine (C83_key w floats nms 4 (lit "Node") (lit "Node") false CtorSamples.node node_names (lit " a,t ,l") o 0 s _ node_keyed _ _ _).
  - vm_compute. reflexivity.
  - discriminate.
  - intros f I. cbn in I. decompose [or] I; try contradiction; subst f; exact Logic.I.
Qed.
(** on the object of the first sample call: (7, b'abc', [1, -2]) *)
Lemma node_key_run : match ctor 4 CtorSamples.node CtorSamples.kw1 with
  | Ok o => exists l s, calls_method w 4 (XObj (lit "Node") o) (lit "_key") [] [] (mkst [] None) = Ok (XV (PSeq [PInt 7; PBytes Samples.abc; PList l]), s) /\ l_count l = 2
  | Err _ => False
  end.
Proof. vm_compute. eexists _, _. split; reflexivity. Qed.

(** a struct whose only field is a nullable group called key *)
Definition k_group : field := FGroup "key" 0 None true None [CtorSamples.fnull; CtorSamples.fval].
Definition k_fields : sfields := [(lit "key", k_group)].
Definition k_key : list str := Eval vm_compute in match key_text 4 k_fields (lit "*") with Ok t => t | Err _ => [] end.
Definition k_prop : list str := def_property 4 (lit "key") (nullable_body (lit "key")).
Definition k_world : world :=
  mkworld 4 (fun c => if is c "K" then parse (field_text floats 4 (nms "" "key") k_group) ++ parse k_key else []) (fun _ => None) (fun _ => None) (fun _ _ => None) float_value.
Lemma k_defines ls l : reads_as 4 ls l ->
  Forall (fun q => match q with qDef d n ps b => last_def (w_body k_world (lit "K")) n = Some (d, ps, b) | _ => True end) l -> defines k_world (lit "K") 4 ls.
Proof. intros R F. exists l. split; [exact R|]. intros d n ps b I. rewrite Forall_forall in F. exact (F _ I). Qed.
Lemma k_fails o s : r_attr (rt k_world 5) (XObj (lit "K") o) (lit "key") s = Err AttributeError.
Proof.
  apply (C83_nullable_key_refuted k_world 4 (lit "K") o 4 s k_fields (lit "*") k_key).
  - vm_compute. reflexivity.
  - discriminate.
  - apply Forall_cons; [split; reflexivity|apply Forall_nil].
  - apply (k_defines _ (parse k_key)); [eexists _, 200%nat; split; [vm_compute; reflexivity|vm_compute; reflexivity]|repeat (apply Forall_cons; [vm_compute; reflexivity|]); apply Forall_nil].
  - apply (k_defines _ (parse k_prop)); [eexists _, 200%nat; split; [vm_compute; reflexivity|vm_compute; reflexivity]|].
    let l := eval vm_compute in (parse k_prop) in change (parse k_prop) with l. repeat (apply Forall_cons; [vm_compute; reflexivity|]); apply Forall_nil.
Qed.
