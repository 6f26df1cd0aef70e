(** An example of the messages of SchemaSpec.v, used only to show that
    hypotheses are satisfiable:

    struct A @1 { num @0 :Int32 = 42; myTitle @1 :Text; kids @2 :List(A);
    union { x @3 :Int16; y @4 :Void; }
    n :group $Py.nullable { isNull @5 :UInt8; value @6 :Int32; } }
    struct B @3 { n :group $Py.nullable { isNull @0 :UInt8; value @1 :Text; } }
    (which the compiler refuses) *)
From Verif Require Import Base Spec SegSpec BaseFacts Ptr Segment Builder Struct List Query StructFacts Enc EncDen MsgFinal Message Case Loader Names
  CopyList ArgSpec Ctor CtorSpec LayoutCheck SchemaPy SchemaMsg SchemaSpec SchemaFacts.
From Coq Require Import String.
From Coq Require Import Lists.List.
Local Notation length := Datatypes.length.
Local Open Scope string_scope.
Local Open Scope list_scope.
Local Open Scope Z_scope.

Definition tag_only (t : yty) : value := VStruct (le_enc 2 (ytag t) ++ zeros 22) [VNull].
Definition type_of (t : yty) : value :=
  match t with
  | YStruct id => VStruct (le_enc 2 16 ++ zeros 6 ++ le_enc 8 id ++ zeros 8) [VNull]
  | _ => tag_only t
  end.
Definition value_of (t : yty) (x : Z) : value :=
  match t with
  | YInt Fi => VStruct (le_enc 2 4 ++ zeros 2 ++ le_enc 4 x ++ zeros 8) [VNull]
  | _ => VStruct (le_enc 2 (ytag t) ++ zeros 14) [VNull]
  end.
Definition field_data (order disc off tag last : Z) : bytes :=
  le_enc 2 order ++ le_enc 2 (Z.lxor disc 65535) ++ le_enc 4 off ++ le_enc 2 tag ++ zeros 6 ++ le_enc 8 last.
Definition slot (n : string) (order disc off : Z) (t : value) (v : value) (ex : Z) : bytes * list value :=
  (field_data order disc off 0 ex, [text_value true (bstr n); VNull; t; v]).
Definition node_data (id ds ps dc doff : Z) : bytes :=
  le_enc 8 id ++ zeros 4 ++ le_enc 2 1 ++ le_enc 2 ds ++ zeros 8 ++ le_enc 2 ps ++ zeros 4 ++ le_enc 2 dc ++ le_enc 4 doff ++ zeros 4.
Definition list_A : value := VStruct (le_enc 2 14 ++ zeros 22) [type_of (YStruct 1)].

Definition nodes : list (bytes * list value) :=
  [ (node_data 1 3 2 2 2, [VNull; VNull; VNull;
     VComp 3 4 [ slot "num" 0 65535 0 (type_of (YInt Fi)) (value_of (YInt Fi) 42) 1;
                 slot "myTitle" 1 65535 0 (type_of YText) (value_of YText 0) 0;
                 slot "kids" 2 65535 1 list_A (value_of (YList YVoid) 0) 0;
                 slot "x" 3 0 3 (type_of (YInt Fh)) (value_of (YInt Fh) 0) 0;
                 slot "y" 4 1 0 (type_of YVoid) (value_of YVoid 0) 0;
                 (field_data 5 65535 0 1 2,
                  [text_value true (bstr "n"); VComp 1 2 [(le_enc 8 nullable_mark, [VNull; VNull])] []; VNull; VNull]) ] [];
     VNull; VNull]);
    (node_data 2 3 2 0 0, [VNull; VNull; VNull;
     VComp 3 4 [ slot "isNull" 0 65535 12 (type_of (YInt FB)) (value_of (YInt FB) 0) 0;
                 slot "value" 1 65535 4 (type_of (YInt Fi)) (value_of (YInt Fi) 0) 0 ] [];
     VNull; VNull]);
    (zeros 40, [VNull; VNull; VNull; VNull; VNull; VNull]);
    (node_data 3 1 1 0 0, [VNull; VNull; VNull;
     VComp 3 4 [ (field_data 0 65535 0 1 4,
                  [text_value true (bstr "n"); VComp 1 2 [(le_enc 8 nullable_mark, [VNull; VNull])] []; VNull; VNull]) ] [];
     VNull; VNull]);
    (node_data 4 1 1 0 0, [VNull; VNull; VNull;
     VComp 3 4 [ slot "isNull" 0 65535 0 (type_of (YInt FB)) (value_of (YInt FB) 0) 0;
                 slot "value" 1 65535 0 (type_of YText) (value_of YText 0) 0 ] [];
     VNull; VNull]) ].
Definition request : list value := [VComp 5 6 nodes []; VNull; VNull; VNull].

Definition fA : list yfield :=
  [ mkyf (bstr "num") 0 None None (YSlot 0 (YInt Fi) 42 true);
    mkyf (bstr "myTitle") 1 None None (YSlot 0 YText 0 false);
    mkyf (bstr "kids") 2 None None (YSlot 1 (YList (YStruct 1)) 0 false);
    mkyf (bstr "x") 3 (Some 0) None (YSlot 3 (YInt Fh) 0 false);
    mkyf (bstr "y") 4 (Some 1) None (YSlot 0 YVoid 0 false);
    mkyf (bstr "n") 5 None (Some [nullable_mark]) (YGroup 2) ].
Definition fN : list yfield :=
  [ mkyf (bstr "isNull") 0 None None (YSlot 12 (YInt FB) 0 false);
    mkyf (bstr "value") 1 None None (YSlot 4 (YInt Fi) 0 false) ].
Definition nA : ynode := mkyn 3 2 2 2 fA.
Definition nN : ynode := mkyn 3 2 0 0 fN.
Definition gB : yfield := mkyf (bstr "n") 0 None (Some [nullable_mark]) (YGroup 4).
Definition nB : ynode := mkyn 1 1 0 0 [gB].
Definition fM : list yfield :=
  [ mkyf (bstr "isNull") 0 None None (YSlot 0 (YInt FB) 0 false);
    mkyf (bstr "value") 1 None None (YSlot 0 YText 0 false) ].
Definition nM : ynode := mkyn 1 1 0 0 fM.
Definition R : yrequest := [(1, Some nA); (2, Some nN); (0, None); (3, Some nB); (4, Some nM)].
Definition A : struct_node := mksn 3 2 (Some 2)
  [ FSlot "num" 0 None (TPrim Fi) 0 true 42;
    FSlot "my_title" 1 None TText 0 false 0;
    FSlot "kids" 2 None (TList (ITStruct 3 2)) 1 false 0;
    FSlot "x" 3 (Some 0) (TPrim Fh) 3 false 0;
    FSlot "y" 4 (Some 1) TVoid 0 false 0;
    FGroup "n" 5 None true None [FSlot "is_null" 0 None (TPrim FB) 12 false 0; FSlot "value" 1 None (TPrim Fi) 4 false 0] ].

Ltac fld := split; [vm_compute; reflexivity|]; split; [vm_compute; reflexivity|]; split; [vm_compute; repeat split; try reflexivity; try discriminate|].
Ltac typ := eexists _, _; split; [reflexivity|]; split; [vm_compute; reflexivity|].
Ltac slt := fld; split; [reflexivity|]; split; [vm_compute; reflexivity|]; split; [vm_compute; reflexivity|]; split; [vm_compute; reflexivity|].

Lemma fields_N : Forall2 (fun a i => is_field a (fst i) (snd i)) fN
  [ slot "isNull" 0 65535 12 (type_of (YInt FB)) (value_of (YInt FB) 0) 0;
    slot "value" 1 65535 4 (type_of (YInt Fi)) (value_of (YInt Fi) 0) 0 ].
Proof.
  constructor; [|constructor; [|constructor]]; slt; split; typ; first [exact Logic.I|vm_compute; reflexivity].
Qed.
Lemma is_req : is_request R (zeros 0) request.
Proof.
  split; [|vm_compute; repeat constructor; cbn; intuition discriminate].
  exists 5, 6, nodes, []. split; [reflexivity|]. constructor; [|constructor; [|constructor; [|constructor; [|constructor; [|constructor]]]]].
  - split; [vm_compute; reflexivity|]. cbn [snd]. split; [vm_compute; reflexivity|]. split; [vm_compute; reflexivity|].
    split; [vm_compute; reflexivity|]. split; [vm_compute; reflexivity|]. split; [vm_compute; reflexivity|].
    eexists _, _, _, _. split; [reflexivity|].
    constructor; [slt; split; typ; first [exact Logic.I|vm_compute; reflexivity]|].
    constructor; [slt; split; typ; first [exact Logic.I|split; reflexivity]|].
    constructor; [slt; split; [typ; typ; vm_compute; reflexivity|typ; split; reflexivity]|].
    constructor; [slt; split; typ; first [exact Logic.I|vm_compute; reflexivity]|].
    constructor; [slt; split; typ; first [exact Logic.I|vm_compute; reflexivity]|].
    constructor; [fld; split; [|split; vm_compute; reflexivity]|constructor].
    eexists _, _, _, _. split; [reflexivity|]. constructor; [vm_compute; reflexivity|constructor].
  - split; [vm_compute; reflexivity|]. cbn [snd]. split; [vm_compute; reflexivity|]. split; [vm_compute; reflexivity|].
    split; [vm_compute; reflexivity|]. split; [vm_compute; reflexivity|]. split; [vm_compute; reflexivity|].
    eexists _, _, _, _. split; [reflexivity|]. exact fields_N.
  - split; vm_compute; [reflexivity|discriminate].
  - split; [vm_compute; reflexivity|]. cbn [snd]. split; [vm_compute; reflexivity|]. split; [vm_compute; reflexivity|].
    split; [vm_compute; reflexivity|]. split; [vm_compute; reflexivity|]. split; [vm_compute; reflexivity|].
    eexists _, _, _, _. split; [reflexivity|].
    constructor; [fld; split; [|split; vm_compute; reflexivity]|constructor].
    eexists _, _, _, _. split; [reflexivity|]. constructor; [vm_compute; reflexivity|constructor].
  - split; [vm_compute; reflexivity|]. cbn [snd]. split; [vm_compute; reflexivity|]. split; [vm_compute; reflexivity|].
    split; [vm_compute; reflexivity|]. split; [vm_compute; reflexivity|]. split; [vm_compute; reflexivity|].
    eexists _, _, _, _. split; [reflexivity|].
    constructor; [slt; split; typ; first [exact Logic.I|vm_compute; reflexivity]|].
    constructor; [slt; split; typ; first [exact Logic.I|split; reflexivity]|constructor].
Qed.
Lemma bad_B : In (3, Some nB) R /\ In gB (yn_fields nB) /\ y_kind gB = YGroup 4 /\ marked gB = true /\ In (4, Some nM) R /\ ~ nullable_shape nM.
Proof.
  split; [do 3 right; left; reflexivity|]. split; [left; reflexivity|]. split; [reflexivity|]. split; [reflexivity|].
  split; [do 4 right; left; reflexivity|].
  intros (F & G & E & _ & _ & K). injection E as <- <-. cbn in K. discriminate K.
Qed.

Lemma names : ascii_names R.
Proof.
  intros id N F [E|[E|[E|[E|[E|[]]]]]]; try discriminate E; injection E as _ <-; cbn [yn_fields nA nN nB nM gB fA fN fM In]; intros J;
    repeat (destruct J as [<-|J]; [vm_compute; repeat constructor; reflexivity|]); contradiction.
Qed.

Definition conv (_ : Z) (_ : bytes) : bool := true.
Definition kws : list str := [lit "class"; lit "from"].
Lemma name_is b s : name_in kws conv 1 b = s -> name_in kws conv 2 b = s.
Proof. auto. Qed.
Lemma lay : class_lay (name_in kws conv) R 1 A.
Proof.
  eexists nA, (sn_fields A). split; [left; reflexivity|]. split; [|reflexivity].
  assert (S : forall n F off t x ex ft nm, y_kind F = YSlot off t x ex -> name_in kws conv n (y_name F) = nm -> type_lay R t ft ->
     (ex = true -> can_default t) -> field_lay (name_in kws conv) R n F (FSlot nm (y_order F) (y_disc F) ft off ex x)).
  { intros n F off t x ex ft nm K <- T E. now constructor 1 with t. }
  cbn [yn_fields nA fA sn_fields A].
  apply lay_cons; [eapply S; [reflexivity|vm_compute; reflexivity|reflexivity|intros _; exact Logic.I]|].
  apply lay_cons; [eapply S; [reflexivity|vm_compute; reflexivity|reflexivity|discriminate]|].
  apply lay_cons; [eapply S; [reflexivity|vm_compute; reflexivity| |discriminate]|].
  { eexists. split; [reflexivity|]. exists nA. split; [left; reflexivity|reflexivity]. }
  apply lay_cons; [eapply S; [reflexivity|vm_compute; reflexivity|reflexivity|discriminate]|].
  apply lay_cons; [eapply S; [reflexivity|vm_compute; reflexivity|reflexivity|discriminate]|].
  apply lay_cons; [|constructor].
  apply (lay_group (name_in kws conv) R 1 (mkyf (bstr "n") 5 None (Some [nullable_mark]) (YGroup 2)) 2 nN
    [FSlot "is_null" 0 None (TPrim FB) 12 false 0; FSlot "value" 1 None (TPrim Fi) 4 false 0]);
    [reflexivity|right; left; reflexivity| |].
  - apply lay_cons; [eapply S; [reflexivity|vm_compute; reflexivity|reflexivity|discriminate]|].
    apply lay_cons; [eapply S; [reflexivity|vm_compute; reflexivity|reflexivity|discriminate]|constructor].
  - intros _. eexists _, _. split; [reflexivity|]. split; [reflexivity|]. split; reflexivity.
Qed.

(** the message, in one segment *)
Definition root : value := VStruct (zeros 0) request.
Definition message : bytes := le_enc 8 (ptr_word root 0) ++ content root.
Definition loaded : res struct_node :=
  do r <- loads (frame_with [] [message]);
  match r with Some o => load_class kws conv 9 o 1 | None => Err TypeError end.
Lemma run : loaded = Ok A.
Proof. vm_compute. reflexivity. Qed.
Lemma good : layout_ok A.
Proof. apply layout_okb_ok. vm_compute. reflexivity. Qed.

Lemma root_wf : wfv root.
Proof.
  vm_compute.
  repeat first [exact Logic.I | reflexivity | discriminate | match goal with |- _ /\ _ => split | |- Forall _ _ => constructor end | vm_compute; reflexivity].
Qed.
Lemma root_den : exists p, word_at (mem_of [message]) 0 = Some p /\ den (mem_of [message]) p 0 root.
Proof.
  eexists. split; [vm_compute; reflexivity|]. apply (enc_den root root_wf) with (base := 8) (off := 0).
  - split; [vm_compute; split; [discriminate|reflexivity]|vm_compute; reflexivity].
  - lia.
  - reflexivity.
  - vm_compute. split; discriminate.
  - vm_compute. discriminate.
  - apply (bytes_at_at _ _ (blen (content root))). vm_compute. reflexivity.
Qed.
Lemma framed : frameable [message] /\ pad_ok [] [message].
Proof.
  split; [|reflexivity]. split; [discriminate|]. split; [vm_compute; discriminate|].
  constructor; [|constructor]. split; vm_compute; reflexivity.
Qed.
