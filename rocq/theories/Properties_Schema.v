(** Property theorems C77: how the compiler reads the schema. The capnp tool
    describes a .capnp file to capnpy in a message, a CodeGeneratorRequest;
    capnpy reads this message with the classes of capnpy/schema.py, which its
    own compiler generated. The rest of the model starts from the result (the
    layout of a class, [struct_node], Ctor.v).

    Reading guide. [is_request R d vs] (SchemaSpec.v): the struct with data
    section [d] and pointers [vs] is a CodeGeneratorRequest, as the official
    schema.capnp lays it out, for the schemas [R]. [class_lay pyname R id sn]:
    [sn] is the layout that the class of the struct [id] of [R] is to have:
    each field with its offset, type, discriminant, default; groups by the
    node that they refer to. [load_class kwlist conv fuel o id] (SchemaMsg.v)
    is what the code reads from the object [o]; [fuel] is the recursion
    limit of Python, [conv] the option convert_case, by node and field,
    [kwlist] the keywords of Python. *)
From Verif Require SchemaSample.
From Verif Require Import Base Spec SegSpec BaseFacts Ptr Segment Builder Struct List Query StructFacts Enc EncDen MsgFinal Message Case Loader Names
  CopyList ArgSpec Ctor CtorSpec CtorCall CtorProps LayoutCheck ShowCtor SchemaPy SchemaMsg SchemaSpec SchemaFacts SchemaConv Properties_Ctor.
From Coq Require Import String.
From Coq Require Import Lists.List.
Local Notation length := Datatypes.length.
Local Open Scope string_scope.
Local Open Scope list_scope.
Local Open Scope Z_scope.

Lemma name_found kwlist conv n b : ascii b -> py_name kwlist conv n b = Ok (name_in kwlist conv n b).
Proof.
  intros A. unfold py_name. replace (forallb (fun c => bZ c <? 128) b) with true; [reflexivity|].
  symmetry. apply forallb_forall. intros c J. unfold ascii in A. rewrite Forall_forall in A. specialize (A c J). lia.
Qed.

(** Whatever the message looks like (any well-formed encoding of the request,
    C01), the class has the layout that the schema says *)
Theorem C77_read : forall R kwlist conv o d vs id sn, obj_den o d vs -> is_request R d vs -> ascii_names R ->
  class_lay (name_in kwlist conv) R id sn ->
  exists n0, forall fuel, (n0 <= fuel)%nat -> load_class kwlist conv fuel o id = Ok sn.
Proof.
  intros R kwlist conv o d vs id sn D Q A L. apply (load_class_ok R kwlist conv (name_in kwlist conv) o d vs id sn D Q); [|exact L].
  intros i N F J K. apply name_found. exact (A i N F J K).
Qed.
Print Assumptions C77_read.

(** The converse: a class that is generated, whatever the recursion limit, is
    one that the schema says. Nothing else is accepted: a reference to a node
    that the request does not have or that is not a struct, a $Py.nullable
    group whose fields are not isNull and a value that is no pointer, a name
    that is not ASCII, groups that contain themselves *)
Theorem C77_sound : forall R kwlist conv o d vs id fuel sn, obj_den o d vs -> is_request R d vs ->
  load_class kwlist conv fuel o id = Ok sn -> class_lay (name_in kwlist conv) R id sn.
Proof.
  intros R kwlist conv o d vs id fuel sn D Q E. destruct (collect_ok R o d vs D Q) as (nodes & Ec & NO).
  unfold load_class in E. rewrite Ec in E. cbn [bind] in E. exact (class_conv R (proj2 Q) nodes NO kwlist conv fuel id sn E).
Qed.
Print Assumptions C77_sound.
Theorem C77_exact : forall R kwlist conv o d vs id sn, obj_den o d vs -> is_request R d vs -> ascii_names R ->
  (class_lay (name_in kwlist conv) R id sn <->
   exists n0, forall fuel, (n0 <= fuel)%nat -> load_class kwlist conv fuel o id = Ok sn).
Proof.
  intros R kwlist conv o d vs id sn D Q A. split; [now apply C77_read with d vs|].
  intros (n0 & E). exact (C77_sound R kwlist conv o d vs id n0 sn D Q (E n0 (Nat.le_refl _))).
Qed.
Print Assumptions C77_exact.
(** In particular, a nullable group whose value is a pointer, or that has
    other fields, gives no class *)
Theorem C77_nullable_refused : forall R kwlist conv o d vs id N F gid G fuel sn, obj_den o d vs -> is_request R d vs ->
  In (id, Some N) R -> In F (yn_fields N) -> y_kind F = YGroup gid -> marked F = true ->
  In (gid, Some G) R -> ~ nullable_shape G ->
  load_class kwlist conv fuel o id <> Ok sn.
Proof.
  intros R kwlist conv o d vs id N F gid G fuel sn D Q J JF K M JG B E.
  apply (C77_sound R kwlist conv o d vs id fuel sn D Q) in E. destruct E as (N' & fs & J' & L & _).
  assert (U : forall i x y, In (i, Some x) R -> In (i, Some y) R -> x = y).
  { destruct Q as (_ & ND). clear -ND. intros i x y X Y. induction R as [|[j e] r IH]; [contradiction|].
    cbn [map fst] in ND. apply NoDup_cons_iff in ND as (N1 & N2). destruct X as [X|X], Y as [Y|Y].
    - congruence.
    - exfalso. apply N1. injection X as -> _. apply in_map_iff. exists (i, Some y). auto.
    - exfalso. apply N1. injection Y as -> _. apply in_map_iff. exists (i, Some x). auto.
    - now apply IH. }
  assert (N' = N) by exact (U id N' N J' J). subst N'.
  clear -L JF K M JG B U. induction L as [|n F' Fs f fs L1 L2 IH]; [contradiction|].
  destruct JF as [->|JF]; [|now apply IH].
  inversion L1 as [? ? ? ? ? ? ? K2| n2 F2 id2 N2 fs2 K2 J2 LL S2]; subst; rewrite K in K2; [discriminate|]. injection K2 as <-.
  apply B. rewrite (U gid G N2 JG J2). now apply S2.
Qed.
Print Assumptions C77_nullable_refused.

(** From the bytes of the request to the properties of an instance: the
    message is loaded, the class is found in it, and an instance that is made
    with keyword arguments reads back as these arguments *)
Theorem C77_end_to_end : forall segs pad p d vs R kwlist conv id sn,
  frameable segs -> pad_ok pad segs ->
  word_at (mem_of segs) 0 = Some p -> den (mem_of segs) p 0 (VStruct d vs) ->
  is_request R d vs -> ascii_names R -> class_lay (name_in kwlist conv) R id sn ->
  exists request n0, loads (frame_with pad segs) = Ok (Some request) /\
    forall fuel, (n0 <= fuel)%nat -> load_class kwlist conv fuel request id = Ok sn /\
    (layout_ok sn -> forall kw vals,
     call_ok fuel (filter visible (sn_fields sn)) kw vals ->
     (length (members_given (filter visible (sn_fields sn)) kw) <= 1)%nat ->
     call_size sn kw vals <= 2 ^ 32 ->
     exists o d' vs', ctor fuel sn kw = Ok o /\ obj_den o d' vs' /\
       blen d' = 8 * sn_ds sn /\ blen vs' = sn_ps sn /\
       scope_reads o (sn_utag sn) (sn_fields sn) (map (arg_for kw) (filter visible (sn_fields sn)))).
Proof.
  intros segs pad p d vs R kwlist conv id sn F P W D Q A L.
  destruct (loads_value segs pad p (VStruct d vs) F P W D) as (o & E & O).
  destruct (C77_read R kwlist conv o d vs id sn O Q A L) as (n0 & S0).
  exists o, (Nat.max 2 n0). split; [exact E|]. intros fuel Hf. split; [apply S0; lia|].
  intros LO kw vals C M Z. apply C29_constructor with (vals := vals); try assumption. lia.
Qed.
Print Assumptions C77_end_to_end.


(** ** Types that have no class *)

(** interface, or a list of interfaces or AnyPointers, at any depth *)
Fixpoint bad_item (t : yty) : Prop :=
  match t with YInterface _ | YAny => True | YList t' => bad_item t' | _ => False end.
Definition bad_type (t : yty) : Prop :=
  match t with YInterface _ => True | YList t' => bad_item t' | _ => False end.
Definition unsupported (k : ykind) : Prop :=
  match k with
  | YSlot _ t _ ex => bad_type t \/ ex = true /\ ~ can_default t
  | YGroup _ => False
  end.

Lemma item_bad nodes t : forall o d vs, obj_den o d vs -> is_type t (VStruct d vs) -> bad_item t ->
  forall fuel i, item_type fuel nodes o <> Ok i.
Proof.
  induction t as [| |f| | | | |t IH|id|id|id|]; intros o d vs D I B [|fuel] i; try discriminate; cbn [bad_item] in B; try contradiction;
    pose proof I as I'; apply type_shape in I' as (d0 & vs0 & E0 & T); injection E0 as <- <-;
    pose proof (type_which _ o d vs D T) as W; pose proof (tag_of_type _ o d vs D T) as Th;
    cbn [item_type]; rewrite W; try discriminate.
  cbn [bind ytag Z.eqb Pos.eqb Z.leb Z.compare Pos.compare Pos.compare_cont andb].
  destruct I as (d1 & vs1 & E1 & _ & I). injection E1 as <- <-.
  destruct (list_elem o d vs t D Th I) as (e & d' & vs' & G & E & DE & IE). rewrite G. cbn [bind]. rewrite E. cbn [bind].
  destruct (item_type fuel nodes e) as [j|] eqn:X; [|discriminate]. exfalso. exact (IH e d' vs' DE IE B fuel j X).
Qed.
Lemma slot_bad nodes t o d vs : obj_den o d vs -> is_type t (VStruct d vs) -> bad_type t ->
  forall fuel ft, slot_type fuel nodes o <> Ok ft.
Proof.
  intros D I B fuel ft. destruct t as [| |f| | | | |t|id|id|id|]; cbn [bad_type] in B; try contradiction;
    pose proof I as I'; apply type_shape in I' as (d0 & vs0 & E0 & T); injection E0 as <- <-;
    pose proof (type_which _ o d vs D T) as W; pose proof (tag_of_type _ o d vs D T) as Th;
    unfold slot_type; rewrite W; try discriminate.
  cbn [bind ytag Z.eqb Pos.eqb Z.leb Z.compare Pos.compare Pos.compare_cont andb].
  destruct I as (d1 & vs1 & E1 & _ & I). injection E1 as <- <-.
  destruct (list_elem o d vs t D Th I) as (e & d' & vs' & G & E & DE & IE). rewrite G. cbn [bind]. rewrite E. cbn [bind].
  destruct (item_type fuel nodes e) as [j|] eqn:X; [|discriminate]. exfalso. exact (item_bad nodes t e d' vs' DE IE B fuel j X).
Qed.
Lemma slot_not t o d vs fuel nodes ft : obj_den o d vs -> is_type t (VStruct d vs) -> slot_type fuel nodes o = Ok ft -> ~ can_default t ->
  match ft with TPrim _ | TFloat32 | TFloat64 | TEnum | TBool => False | _ => True end.
Proof.
  intros D I E C. destruct t as [| |f| | | | |t|id|id|id|]; cbn [can_default] in C; try tauto;
    pose proof I as I'; apply type_shape in I' as (d0 & vs0 & E0 & T); injection E0 as <- <-;
    pose proof (type_which _ o d vs D T) as W; unfold slot_type in E; rewrite W in E; cbn [bind] in E;
    try (apply ok_inj in E; subst ft; exact Logic.I); try discriminate E.
  cbn [ytag Z.eqb Pos.eqb Z.leb Z.compare Pos.compare Pos.compare_cont andb] in E.
  destruct (attr_group c_Type o "list") as [l|]; [|discriminate]. cbn [bind] in E.
  destruct (obj_attr c_Type_list l "elementType") as [e|]; [|discriminate]. cbn [bind] in E.
  destruct (item_type fuel nodes e) as [j|]; [|discriminate]. cbn [bind] in E. apply ok_inj in E. subst ft. exact Logic.I.
Qed.

Lemma field_bad nodes kwlist conv n F o : is_field_obj F o -> unsupported (y_kind F) ->
  forall fuel f, read_field kwlist conv fuel nodes n o <> Ok f.
Proof.
  intros FO B [|fuel] f; [discriminate|]. pose proof (name_ok F o FO) as Nm. pose proof (order_ok F o FO) as Or.
  destruct (disc_ok F o FO) as (dv & Dv & Dd). destruct FO as (d & vs & D & _ & _ & _ & _ & KD).
  destruct (y_kind F) as [off t x ex|]; [|contradiction]. destruct KD as (W & Off & Ex & Ty & Df).
  assert (Th : v_prim d 8 Fh = 0) by (apply small_tag; [lia|exact W|lia]).
  assert (G : attr_group c_Field o "slot" = Ok o).
  { eapply (attr_group_ok c_Field o d vs D); [reflexivity|]. cbn. split; [lia|exact Th]. }
  pose proof (type_shape _ _ Ty) as (dt & vt & Vt & _). rewrite Vt in Ty.
  destruct (obj_ok c_Field_slot o d vs D "type" "type" 1 None 2 false dt vt eq_refl Logic.I ltac:(lia) Vt) as (to & To & Dt).
  cbn [read_field]. rewrite Nm. cbn [bind]. destruct (py_name kwlist conv n (y_name F)) as [py|]; [|discriminate].
  cbn [bind]. rewrite Or. cbn [bind]. rewrite Dv. cbn [bind].
  change (sn_utag c_Field) with (Some 4). rewrite (which_ok o d vs D 4) by lia. change (4 * 2) with 8. rewrite Th. cbn [bind Z.eqb].
  rewrite G. cbn [bind]. rewrite To. cbn [bind]. destruct (slot_type fuel nodes to) as [ft|] eqn:S; [|discriminate]. cbn [bind].
  destruct B as [B|(-> & C)]; [exfalso; exact (slot_bad nodes t to dt vt Dt Ty B fuel ft S)|].
  rewrite (bool_ok c_Field_slot o d vs D "hadExplicitDefault" "hadExplicitDefault" 3 None 128 false eq_refl Logic.I) by lia.
  change (128 / 8) with 16. change (128 mod 8) with 0. rewrite Ex. cbn [bind].
  pose proof (slot_not t to dt vt fuel nodes ft Dt Ty S C) as K. destruct ft; try contradiction; discriminate.
Qed.

(** A struct with such a field, in particular one with a default value that is
    a pointer, gives no class at all *)
Theorem C77_refused : forall R kwlist conv o d vs id N F fuel sn, obj_den o d vs -> is_request R d vs ->
  In (id, Some N) R -> In F (yn_fields N) -> unsupported (y_kind F) ->
  load_class kwlist conv fuel o id <> Ok sn.
Proof.
  intros R kwlist conv o d vs id N F fuel sn D Q J JF B E. destruct (collect_ok R o d vs D Q) as (nodes & Ec & NO).
  unfold load_class in E. rewrite Ec in E. cbn [bind] in E.
  destruct (struct_ok R (proj2 Q) nodes NO id N J) as (x & s & A & Gs & U & DS & PS & os & SF & FOs).
  unfold read_struct in E. rewrite A in E. cbn [bind] in E. rewrite SF in E. cbn [bind] in E.
  match type of E with context [@bind (list field) _ (?h os) _] => change (h os) with (read_fields nodes kwlist conv fuel id os) in E end.
  destruct (read_fields nodes kwlist conv fuel id os) as [fs|] eqn:X; [|discriminate]. clear E SF.
  revert fs X. induction FOs as [|G g Fs os H FOs IH]; [contradiction|]. intros fs X.
  change (read_fields nodes kwlist conv fuel id (g :: os))
    with (do f <- read_field kwlist conv fuel nodes id g; do r <- read_fields nodes kwlist conv fuel id os; Ok (f :: r)) in X.
  destruct (read_field kwlist conv fuel nodes id g) as [f|] eqn:Y; [|discriminate]. cbn [bind] in X.
  destruct (read_fields nodes kwlist conv fuel id os) as [r|] eqn:Z0; [|discriminate].
  destruct JF as [->|JF]; [exact (field_bad nodes kwlist conv id F g H B fuel f Y)|]. exact (IH JF r eq_refl).
Qed.
Print Assumptions C77_refused.

(** ** schema.py itself

    schema.py was generated by the compiler that it is a part of. Its classes
    are layouts as the theorems about generated classes need them, and the
    constructors in the file are, statement by statement, the ones that the
    model of the compiler generates for these layouts ([snd c]: the text) *)
Theorem C77_schema_layouts : forall c, In c classes -> layout_ok (fst c).
Proof.
  assert (H : forallb (fun c => layout_okb (fst c)) classes = true) by (vm_compute; reflexivity).
  rewrite forallb_forall in H. intros c J. apply layout_okb_ok. exact (H c J).
Qed.
Print Assumptions C77_schema_layouts.

Definition same_text (c : struct_node * list string) : bool :=
  match show_new (fst c) with
  | Ok l => if list_eq_dec (list_eq_dec Z.eq_dec) l (map lit (snd c)) then true else false
  | Err _ => false
  end.
Theorem C77_schema_text : forall c, In c classes -> show_new (fst c) = Ok (map lit (snd c)).
Proof.
  assert (H : forallb same_text classes = true) by (vm_compute; reflexivity).
  rewrite forallb_forall in H. intros c J. specialize (H c J). unfold same_text in H.
  destruct (show_new (fst c)) as [l|]; [|discriminate]. destruct (list_eq_dec _ _ _) as [->|]; [reflexivity|discriminate].
Qed.
Print Assumptions C77_schema_text.

(** Those of C77_nullable_refused, for the second struct of the example *)
Example C77_nullable_applies : is_request SchemaSample.R (zeros 0) SchemaSample.request /\
  In (3, Some SchemaSample.nB) SchemaSample.R /\ In SchemaSample.gB (yn_fields SchemaSample.nB) /\
  y_kind SchemaSample.gB = YGroup 4 /\ marked SchemaSample.gB = true /\ In (4, Some SchemaSample.nM) SchemaSample.R /\
  ~ nullable_shape SchemaSample.nM.
Proof. exact (conj SchemaSample.is_req SchemaSample.bad_B). Qed.

(** The hypotheses of C77_read and C77_end_to_end hold for the example *)
Theorem C77_applies : is_request SchemaSample.R (zeros 0) SchemaSample.request /\ ascii_names SchemaSample.R /\
  class_lay (name_in SchemaSample.kws SchemaSample.conv) SchemaSample.R 1 SchemaSample.A /\ layout_ok SchemaSample.A /\
  frameable [SchemaSample.message] /\ pad_ok [] [SchemaSample.message] /\
  exists p, word_at (mem_of [SchemaSample.message]) 0 = Some p /\ den (mem_of [SchemaSample.message]) p 0 SchemaSample.root.
Proof.
  split; [exact SchemaSample.is_req|]. split; [exact SchemaSample.names|]. split; [exact SchemaSample.lay|]. split; [exact SchemaSample.good|].
  split; [exact (proj1 SchemaSample.framed)|]. split; [exact (proj2 SchemaSample.framed)|]. exact SchemaSample.root_den.
Qed.
Print Assumptions C77_applies.
