(** Model of how the compiler reads the schema: from the message that the capnp
    tool writes (a schema.CodeGeneratorRequest) to the layouts that the rest
    of the model starts from ([struct_node], Ctor.v). The message is read with
    the generated classes of schema.py (SchemaPy.v).

    Simplifications: $Py.group and $Py.key (PyGroup.v) and the
    computation of the options (Options.v) are not part of this: [conv id
    name] is the option convert_case of the field called [name] of the node
    [id]. TypeError stands for any misuse of None. Text fields with textType
    unicode have the layout of bytes ones. *)
From Verif Require Const.
From Verif Require Import Base Spec Ptr Segment Builder Struct List Case Loader CopyList Ctor SchemaPy.
From Coq Require Import String.
From Coq Require Import Lists.List.
Local Notation length := Datatypes.length.
Local Open Scope string_scope.
Local Open Scope list_scope.
Local Open Scope Z_scope.

(** ** Attributes *)

Definition named (n : string) (f : field) : bool := String.eqb (f_name f) n.

(** obj.n, where obj is of class [c] and n is not a group *)
Definition attr (c : struct_node) (o : obj) (n : string) : res gval :=
  match find (named n) (sn_fields c) with
  | Some f => get_slot o (sn_utag c) f
  | None => Err AttributeError
  end.
(** obj.n, where n is a group; its class *)
Definition attr_group (c : struct_node) (o : obj) (n : string) : res obj :=
  match find (named n) (sn_fields c) with
  | Some f => get_group o (sn_utag c) f
  | None => Err AttributeError
  end.
Definition group_class (c : struct_node) (n : string) : struct_node :=
  match find (named n) (sn_fields c) with
  | Some (FGroup _ _ _ _ u fs) => mksn (sn_ds c) (sn_ps c) u fs
  | _ => mksn 0 0 None []
  end.
Definition int_attr (c : struct_node) (o : obj) (n : string) : res Z :=
  do g <- attr c o n; match g with GInt z => Ok z | _ => Err TypeError end.
Definition obj_attr (c : struct_node) (o : obj) (n : string) : res obj :=
  do g <- attr c o n; match g with GObj x => Ok x | _ => Err TypeError end.
(** the items of a list field, None for a null pointer *)
Definition list_attr (c : struct_node) (o : obj) (n : string) : res (option (list obj)) :=
  do g <- attr c o n;
  match g with
  | GList l =>
      do xs <- l_iter (S (Z.to_nat (l_count l))) l 0;
      Ok (Some (flat_map (fun x => match x with IObj o => [o] | _ => [] end) xs))
  | _ => Ok None
  end.

Definition c_Node_struct : struct_node := group_class c_Node "struct".
Definition c_Field_slot : struct_node := group_class c_Field "slot".
Definition c_Field_group : struct_node := group_class c_Field "group".
Definition c_Type_list : struct_node := group_class c_Type "list".
Definition c_Type_enum : struct_node := group_class c_Type "enum".
Definition c_Type_struct : struct_node := group_class c_Type "struct".

(** ** Nodes *)

(** module.py:46-50: allnodes, in order; a later node replaces an earlier one
    of the same id *)
Fixpoint node_ids (l : list obj) : res (list (Z * obj)) :=
  match l with
  | [] => Ok []
  | o :: r => do i <- int_attr c_Node o "id"; do r <- node_ids r; Ok ((i, o) :: r)
  end.
Definition collect_nodes (request : obj) : res (list (Z * obj)) :=
  do l <- list_attr c_CodeGeneratorRequest request "nodes";
  match l with Some l => node_ids l | None => Err TypeError end.
Fixpoint node_get (l : list (Z * obj)) (id : Z) : option obj :=
  match l with
  | [] => None
  | (i, o) :: r => match node_get r id with Some x => Some x | None => if i =? id then Some o else None end
  end.
Definition allnodes (l : list (Z * obj)) (id : Z) : res obj :=
  match node_get l id with Some o => Ok o | None => Err KeyError end.

(** schema_extended.py:230-243 (get_struct_fields) *)
Definition struct_fields (o : obj) : res (option (list obj)) :=
  do w <- which o (sn_utag c_Node);
  do _ <- py_assert (w =? 1);
  do s <- attr_group c_Node o "struct";
  list_attr c_Node_struct s "fields".

(** ** Types *)

Definition int_of_tag (w : Z) : option ifmt :=
  nth_error [Fb; Fh; Fi; Fq; FB; FH; FI; FQ] (Z.to_nat (w - 2)).

(** compiler/misc.py:33-82 (list_item_type) and the class it names; the
    sizes of a struct class are those of its node (struct_.py:65-66) *)
Fixpoint item_type (fuel : nat) (nodes : list (Z * obj)) (o : obj) : res itype :=
  match fuel with
  | O => Err OutOfFuel
  | S fuel =>
      do w <- which o (sn_utag c_Type);
      if w =? 0 then Ok ITVoid
      else if w =? 1 then Ok ITBool
      else if (2 <=? w) && (w <=? 9) then
        match int_of_tag w with Some f => Ok (ITPrim f) | None => Err TypeError end
      else if w =? 10 then Ok (ITFloat false)
      else if w =? 11 then Ok (ITFloat true)
      else if w =? 12 then Ok (ITText (-1))
      else if w =? 13 then Ok (ITText 0)
      else if w =? 14 then
        do l <- attr_group c_Type o "list";
        do e <- obj_attr c_Type_list l "elementType";
        do t <- item_type fuel nodes e; Ok (ITList t)
      else if w =? 15 then
        do e <- attr_group c_Type o "enum";
        do id <- int_attr c_Type_enum e "typeId";
        do _ <- allnodes nodes id; Ok (ITPrim Fh)
      else if w =? 16 then
        do e <- attr_group c_Type o "struct";
        do id <- int_attr c_Type_struct e "typeId";
        do n <- allnodes nodes id;
        do s <- attr_group c_Node n "struct";
        do ds <- int_attr c_Node_struct s "dataWordCount";
        do ps <- int_attr c_Node_struct s "pointerCount";
        Ok (ITStruct ds ps)
      else Err NotImplementedError
  end.

(** The type of a slot (compiler/field.py:25-57, schema_extended.py:17-30,
    133-161); TypeError for an interface: struct.calcsize(None) *)
Definition slot_type (fuel : nat) (nodes : list (Z * obj)) (o : obj) : res ftype :=
  do w <- which o (sn_utag c_Type);
  if w =? 0 then Ok TVoid
  else if w =? 1 then Ok TBool
  else if (2 <=? w) && (w <=? 9) then
    match int_of_tag w with Some f => Ok (TPrim f) | None => Err TypeError end
  else if w =? 10 then Ok TFloat32
  else if w =? 11 then Ok TFloat64
  else if w =? 12 then Ok TText
  else if w =? 13 then Ok TData
  else if w =? 14 then
    do l <- attr_group c_Type o "list";
    do e <- obj_attr c_Type_list l "elementType";
    do t <- item_type fuel nodes e; Ok (TList t)
  else if w =? 15 then Ok TEnum
  else if w =? 16 then Ok TStruct
  else if w =? 18 then Ok TAny
  else Err TypeError.

(** fieldtree.py:117-119: the default value of a slot as a number (Ctor.v);
    a value of another kind than the type is not modelled (TypeError) *)
Definition slot_default_of (t : ftype) (v : obj) : res Z :=
  do g <- Const.as_pyobj v;
  match t, g with
  | (TPrim _ | TEnum), GInt z => Ok z
  | TBool, GBool b => Ok (Z.b2z b)
  | TFloat32, GF32 b => Ok b
  | TFloat64, GF64 b => Ok b
  | (TVoid | TText | TData | TStruct | TList _ | TAny), GNone => Ok 0
  | _, _ => Err TypeError
  end.

(** ** Fields *)

Section names.
  Variable kwlist : list str.
  Variable conv : Z -> bytes -> bool.

  (** compiler/util.py:3-31 (as_identifier), then module.py:148-158 *)
  Definition to_string (s : str) : string :=
    fold_right (fun c r => String (Ascii.ascii_of_nat (Z.to_nat c)) r) EmptyString s.
  Definition py_name (node : Z) (name : bytes) : res string :=
    if forallb (fun b => bZ b <? 128) name
    then Ok (to_string (py_field_name kwlist (conv node name) (map bZ name)))
    else Err ValueError.

  Definition annotation_id : Z := 0x9cc3dea2b1b5e7dd.    (* annotate.py:57 (nullable) *)
  (** module.py:77-95 (has_annotation), schema_extended.py:127 (is_nullable) *)
  Fixpoint has_id (l : list obj) (id : Z) : res bool :=
    match l with
    | [] => Ok false
    | a :: r => do i <- int_attr c_Annotation a "id"; if i =? id then Ok true else has_id r id
    end.
  Definition is_nullable (o : obj) : res bool :=
    do l <- list_attr c_Field o "annotations";
    match l with Some l => has_id l annotation_id | None => Ok false end.

  Definition name_of (c : struct_node) (o : obj) : res bytes :=
    do g <- attr c o "name"; match g with GBytes b => Ok b | _ => Err TypeError end.

  Definition is_pointer_slot (f : field) : bool :=
    match f with FSlot _ _ _ t _ _ _ => ty_pointer t | _ => false end.
  Definition s_isNull : str := lit "isNull".
  Definition s_value : str := lit "value".
  Definition same_name (b : bytes) (s : str) : bool := str_eqb (map bZ b) s.

  (** annotate_extended.py:7-25 (nullable.check): [names], [fs] the names and
      the fields of the group *)
  Definition check_nullable (names : list bytes) (fs : list field) : res unit :=
    match names, fs with
    | [n1; n2], [f1; f2] =>
        if negb (same_name n1 s_isNull) || negb (same_name n2 s_value) then Err ValueError
        else if is_pointer_slot f2 then Err ValueError else Ok tt
    | _, _ => Err TypeError
    end.

  Fixpoint names_of (l : list obj) : res (list bytes) :=
    match l with
    | [] => Ok []
    | o :: r => do n <- name_of c_Field o; do r <- names_of r; Ok (n :: r)
    end.

  (** schema_extended.py:66-67, 130-131 (is_part_of_union; noDiscriminant is
      65535), fieldtree.py:86-132, structor.py, field.py:25-31, 224-252;
      schema_extended.py:262-264 (is_union). [node]: the id of the struct *)
  Definition disc_of (z : Z) : option Z := if z =? 65535 then None else Some z.
  Definition union_of (s : obj) : res (option Z) :=
    do n <- int_attr c_Node_struct s "discriminantCount";
    if 0 <? n then do u <- int_attr c_Node_struct s "discriminantOffset"; Ok (Some u) else Ok None.

  Fixpoint read_field (fuel : nat) (nodes : list (Z * obj)) (node : Z) (o : obj) : res field :=
    match fuel with
    | O => Err OutOfFuel
    | S fuel =>
        do name <- name_of c_Field o;
        do py <- py_name node name;
        do order <- int_attr c_Field o "codeOrder";
        do dv <- int_attr c_Field o "discriminantValue";
        do w <- which o (sn_utag c_Field);
        if w =? 0 then
          do s <- attr_group c_Field o "slot";
          do to <- obj_attr c_Field_slot s "type";
          do t <- slot_type fuel nodes to;
          do ex <- attr c_Field_slot s "hadExplicitDefault";
          let explicit := match ex with GBool b => b | _ => false end in
          do _ <- (if explicit && match t with TPrim _ | TFloat32 | TFloat64 | TEnum | TBool => false | _ => true end
                   then Err ValueError else Ok tt);
          do off <- int_attr c_Field_slot s "offset";
          do v <- obj_attr c_Field_slot s "defaultValue";
          do d <- slot_default_of t v;
          Ok (FSlot py order (disc_of dv) t off explicit d)
        else if w =? 1 then
          do g <- attr_group c_Field o "group";
          do id <- int_attr c_Field_group g "typeId";
          do n <- allnodes nodes id;
          do fo <- struct_fields n;
          match fo with
          | None => Err TypeError
          | Some l =>
              do fs <- (fix go l := match l with
                                    | [] => Ok []
                                    | x :: r => do f <- read_field fuel nodes id x; do r <- go r; Ok (f :: r)
                                    end) l;
              do s <- attr_group c_Node n "struct";
              do u <- union_of s;
              do nl <- is_nullable o;
              do names <- names_of l;
              do _ <- (if nl then check_nullable names fs else Ok tt);
              Ok (FGroup py order (disc_of dv) nl u fs)
          end
        else Err AssertionError
    end.

  (** The class of the struct with the given id: struct_.py:55-95. A node
      whose list of fields is a null pointer gives a class without
      constructor (TypeError here) *)
  Definition read_struct (fuel : nat) (nodes : list (Z * obj)) (id : Z) : res struct_node :=
    do n <- allnodes nodes id;
    do fo <- struct_fields n;
    match fo with
    | None => Err TypeError
    | Some l =>
        do fs <- (fix go l := match l with
                              | [] => Ok []
                              | x :: r => do f <- read_field fuel nodes id x; do r <- go r; Ok (f :: r)
                              end) l;
        do s <- attr_group c_Node n "struct";
        do u <- union_of s;
        do ds <- int_attr c_Node_struct s "dataWordCount";
        do ps <- int_attr c_Node_struct s "pointerCount";
        Ok (mksn ds ps u fs)
    end.

  (** load_schema: the class with the given id of the request *)
  Definition load_class (fuel : nat) (request : obj) (id : Z) : res struct_node :=
    do nodes <- collect_nodes request; read_struct fuel nodes id.
End names.
