(** Specification of the schema messages: which values ([Spec.value]) are the
    schema nodes that capnp's schema.capnp describes, and which layout the
    class of a node is to have. Offsets and numbers are those of the official
    schema.capnp (capnproto 0.5 and later); nothing here mentions schema.py. *)
From Verif Require Import Base Spec List Case CopyList ArgSpec Query Ctor.
From Coq Require Import String.
From Coq Require Import Lists.List.
Local Notation length := Datatypes.length.
Local Open Scope string_scope.
Local Open Scope list_scope.
Local Open Scope Z_scope.

(** ** Schemas *)

Inductive yty :=
| YVoid | YBool | YInt (f : ifmt) | YFloat32 | YFloat64 | YText | YData
| YList (t : yty) | YEnum (id : Z) | YStruct (id : Z) | YInterface (id : Z) | YAny.

(** a slot: offset, type, default value (bits for floats, 0 or 1 for bools,
    0 for pointers), hadExplicitDefault; a group: its node *)
Inductive ykind := YSlot (off : Z) (t : yty) (d : Z) (explicit : bool) | YGroup (id : Z).
Record yfield := mkyf {
  y_name : bytes; y_order : Z;
  y_disc : option Z;               (* discriminantValue *)
  y_anns : option (list Z);        (* ids of the annotations; None: no list *)
  y_kind : ykind }.
Record ynode := mkyn {
  yn_ds : Z; yn_ps : Z; yn_dcount : Z; yn_doff : Z; yn_fields : list yfield }.
(** A request: ids of the nodes, with a description for those that are structs *)
Definition yrequest := list (Z * option ynode).

(** ** As messages *)

(** enum of the union of Type and of Value *)
Definition ytag (t : yty) : Z :=
  match t with
  | YVoid => 0 | YBool => 1
  | YInt f => match f with Fb => 2 | Fh => 3 | Fi => 4 | Fq => 5 | FB => 6 | FH => 7 | FI => 8 | FQ => 9 end
  | YFloat32 => 10 | YFloat64 => 11 | YText => 12 | YData => 13 | YList _ => 14
  | YEnum _ => 15 | YStruct _ => 16 | YInterface _ => 17 | YAny => 18
  end.

(** [v] is a Type *)
Fixpoint is_type (t : yty) (v : value) : Prop :=
  exists d vs, v = VStruct d vs /\ v_prim d 0 FH = ytag t /\
  match t with
  | YList t' => is_type t' (v_ptr vs 0)
  | YEnum id | YStruct id | YInterface id => v_prim d 8 FQ = id
  | _ => True
  end.

(** [v] is a Value, a default value of type [t] *)
Definition is_default (t : yty) (x : Z) (v : value) : Prop :=
  exists d vs, v = VStruct d vs /\ v_prim d 0 FH = ytag t /\
  match t with
  | YBool => Z.testbit (v_prim d 2 FB) 0 = (x =? 1) /\ (x = 0 \/ x = 1)
  | YInt f => v_prim d (match fsize f with 1 | 2 => 2 | n => n end) f = x
  | YFloat32 => v_prim d 4 FI = x
  | YFloat64 => v_prim d 8 FQ = x
  | YEnum _ => v_prim d 2 FH = x
  | YVoid | YInterface _ => x = 0
  | YText | YData | YList _ | YStruct _ | YAny => v_ptr vs 0 = VNull /\ x = 0
  end.

(** a list of structs, and what each of them is *)
Definition is_list {A} (P : A -> bytes -> list value -> Prop) (l : list A) (v : value) : Prop :=
  exists ds ps items slack, v = VComp ds ps items slack /\ Forall2 (fun a i => P a (fst i) (snd i)) l items.

Definition is_annotations (l : option (list Z)) (v : value) : Prop :=
  match l with
  | None => v = VNull
  | Some l => is_list (fun a d _ => v_prim d 0 FQ = a) l v
  end.

Definition is_field (F : yfield) (d : bytes) (vs : list value) : Prop :=
  v_ptr vs 0 = text_value true (y_name F) /\
  v_prim d 0 FH = y_order F /\
  match y_disc F with
  | None => v_prim d 2 FH = 0
  | Some n => Z.lxor (v_prim d 2 FH) 65535 = n /\ n <> 65535
  end /\
  is_annotations (y_anns F) (v_ptr vs 1) /\
  match y_kind F with
  | YSlot off t x ex =>
      v_prim d 8 FH = 0 /\ v_prim d 4 FI = off /\ Z.testbit (v_prim d 16 FB) 0 = ex /\
      is_type t (v_ptr vs 2) /\ is_default t x (v_ptr vs 3)
  | YGroup id => v_prim d 8 FH = 1 /\ v_prim d 16 FQ = id
  end.

Definition is_node (e : Z * option ynode) (d : bytes) (vs : list value) : Prop :=
  v_prim d 0 FQ = fst e /\
  match snd e with
  | Some N =>
      v_prim d 12 FH = 1 /\ v_prim d 14 FH = yn_ds N /\ v_prim d 24 FH = yn_ps N /\
      v_prim d 30 FH = yn_dcount N /\ v_prim d 32 FI = yn_doff N /\
      is_list is_field (yn_fields N) (v_ptr vs 3)
  | None => v_prim d 12 FH <> 1
  end.

Definition is_request (R : yrequest) (d : bytes) (vs : list value) : Prop :=
  is_list is_node R (v_ptr vs 0) /\ NoDup (map fst R).

(** ** The layout that a class is to have *)

Section layout.
  (** the names of the fields in Python, by node and name *)
  Variable pyname : Z -> bytes -> string.
  Variable R : yrequest.

  (** items of a list *)
  Fixpoint item_lay (t : yty) (i : itype) : Prop :=
    match t with
    | YVoid => i = ITVoid
    | YBool => i = ITBool
    | YInt f => i = ITPrim f
    | YFloat32 => i = ITFloat false
    | YFloat64 => i = ITFloat true
    | YText => i = ITText (-1)
    | YData => i = ITText 0
    | YList t' => exists j, i = ITList j /\ item_lay t' j
    | YEnum id => i = ITPrim Fh /\ In id (map fst R)
    | YStruct id => exists N, In (id, Some N) R /\ i = ITStruct (yn_ds N) (yn_ps N)
    | YInterface _ | YAny => False
    end.
  Definition type_lay (t : yty) (f : ftype) : Prop :=
    match t with
    | YVoid => f = TVoid
    | YBool => f = TBool
    | YInt g => f = TPrim g
    | YFloat32 => f = TFloat32
    | YFloat64 => f = TFloat64
    | YText => f = TText
    | YData => f = TData
    | YList t' => exists j, f = TList j /\ item_lay t' j
    | YEnum _ => f = TEnum
    | YStruct _ => f = TStruct
    | YInterface _ => False
    | YAny => f = TAny
    end.
  Definition can_default (t : yty) : Prop :=
    match t with YBool | YInt _ | YFloat32 | YFloat64 | YEnum _ => True | _ => False end.

  (** $Py.nullable *)
  Definition nullable_mark : Z := 0x9cc3dea2b1b5e7dd.
  Definition marked (F : yfield) : bool :=
    match y_anns F with Some l => existsb (Z.eqb nullable_mark) l | None => false end.
  Definition bstr (s : string) : bytes := map Zb (map (fun a => Z.of_nat (Ascii.nat_of_ascii a)) (list_ascii_of_string s)).
  Definition is_pointer_type (t : yty) : bool :=
    match t with YText | YData | YList _ | YStruct _ | YAny => true | _ => false end.
  (** exactly two fields, isNull and value, and the value is not a pointer *)
  Definition nullable_shape (N : ynode) : Prop :=
    exists F G, yn_fields N = [F; G] /\ y_name F = bstr "isNull" /\ y_name G = bstr "value" /\
      match y_kind G with YSlot _ t _ _ => is_pointer_type t = false | YGroup _ => True end.

  (** the union of a struct or group *)
  Definition union_lay (N : ynode) : option Z := if 0 <? yn_dcount N then Some (yn_doff N) else None.

  (** [n]: the node that the field belongs to *)
  Inductive field_lay : Z -> yfield -> field -> Prop :=
  | lay_slot : forall n F off t x ex ft,
      y_kind F = YSlot off t x ex -> type_lay t ft -> (ex = true -> can_default t) ->
      field_lay n F (FSlot (pyname n (y_name F)) (y_order F) (y_disc F) ft off ex x)
  | lay_group : forall n F id N fs,
      y_kind F = YGroup id -> In (id, Some N) R -> fields_lay id (yn_fields N) fs ->
      (marked F = true -> nullable_shape N) ->
      field_lay n F (FGroup (pyname n (y_name F)) (y_order F) (y_disc F) (marked F) (union_lay N) fs)
  with fields_lay : Z -> list yfield -> list field -> Prop :=
  | lay_nil : forall n, fields_lay n [] []
  | lay_cons : forall n F Fs f fs, field_lay n F f -> fields_lay n Fs fs -> fields_lay n (F :: Fs) (f :: fs).

  Definition class_lay (id : Z) (sn : struct_node) : Prop :=
    exists N fs, In (id, Some N) R /\ fields_lay id (yn_fields N) fs /\
      sn = mksn (yn_ds N) (yn_ps N) (union_lay N) fs.
End layout.
