(** Which schemas the compiler accepts: the exceptions of compiler/field.py,
    compiler/struct_.py, compiler/structor.py, compiler/fieldtree.py and
    annotate_extended.py, in the order in which the code is emitted.

    Only the exceptions are modelled here; the emitted text is in Ctor.v,
    Names.v, Const.v and Repr.v. Left out: constants (Const.v), $Py.group
    (PyGroup.v) and imports (Loader.v). *)
From Coq Require Import Strings.String.
From Verif Require Import Base Case Options Loader Const PyGroup.
From Coq Require Import Lists.List.
Local Notation length := Datatypes.length.
Local Open Scope list_scope.
Local Open Scope Z_scope.

(** schema.Field: name, codeOrder, whether it has a discriminantValue; a slot
    with its type, hadExplicitDefault, whether the default value is true in
    Python, and the text of $Py.key if any; or a group. *)
Inductive cfield :=
| CSlot (name : str) (order : Z) (member : bool) (t : sty) (explicit default_true : bool) (key : option str)
| CGroup (name : str) (order : Z) (member : bool) (nullable : bool) (key : option str) (fs : list cfield).
Definition cf_name (f : cfield) : str := match f with CSlot n _ _ _ _ _ _ | CGroup n _ _ _ _ _ => n end.
Definition cf_order (f : cfield) : Z := match f with CSlot _ o _ _ _ _ _ | CGroup _ o _ _ _ _ => o end.
Definition cf_member (f : cfield) : bool := match f with CSlot _ _ m _ _ _ _ | CGroup _ _ m _ _ _ => m end.
Definition cf_key (f : cfield) : option str := match f with CSlot _ _ _ _ _ _ k | CGroup _ _ _ _ k _ => k end.

(** schema.Node *)
Inductive cnode :=
| NdStruct (fs : list cfield) (key : option str) (nested : list cnode)
| NdEnum | NdAnnotation | NdConst | NdInterface.

(** a for loop *)
Definition each {A} (P : A -> res unit) : list A -> res unit :=
  fix go l := match l with [] => Ok tt | x :: r => do _ <- P x; go r end.

(** ** Slots *)

(** schema_extended.py:17-20, 25-30 *)
Definition is_primitive (t : sty) : bool := match t with SInt _ | SFloat32 | SFloat64 => true | _ => false end.
Definition is_pointer (t : sty) : bool := match t with SText | SData | SStruct _ | SList _ | SAny => true | _ => false end.
Definition is_enum (t : sty) : bool := match t with SEnum _ => true | _ => false end.
Definition is_bool (t : sty) : bool := match t with SBool => true | _ => false end.
Definition is_void (t : sty) : bool := match t with SVoid => true | _ => false end.

(** schema_extended.py:134-161 (get_size): struct.calcsize(None) is a
    TypeError. *)
Definition get_size (t : sty) : res unit :=
  if is_void t || is_bool t then Ok tt
  else if is_primitive t || is_pointer t || is_enum t then Ok tt
  else Err TypeError.

(** compiler/field.py:25-57. The last branch is not reached: get_size has
    raised before. *)
Definition emit_slot (pyx : bool) (text_type : Z) (t : sty) (explicit : bool) : res unit :=
  do _ <- (if explicit && negb (is_primitive t || is_enum t || is_bool t) then Err ValueError else Ok tt);
  do _ <- get_size t;
  match t with
  | SText => if (text_type =? tt_bytes) || (text_type =? tt_unicode) then Ok tt else Err NotImplementedError
  | SList u => do _ <- list_item_type pyx text_type u; Ok tt
  | SInterface => Err NotImplementedError
  | _ => Ok tt
  end.

(** ** Groups *)

Definition isNull := lit "isNull".
Definition value := lit "value".
Definition f_pointer (f : cfield) : bool := match f with CSlot _ _ _ t _ _ _ => is_pointer t | CGroup _ _ _ _ _ _ => false end.

(** annotate_extended.py:7-25: error() without its argument is a TypeError *)
Definition check (fs : list cfield) : res unit :=
  match fs with
  | [f_is_null; f_value] =>
      if negb (str_eqb (cf_name f_is_null) isNull) || negb (str_eqb (cf_name f_value) value) then Err ValueError
      else if f_pointer f_value then Err ValueError
      else Ok tt
  | _ => Err TypeError
  end.

Section Compile.
  Variable pyx : bool.
  Variable text_type : Z.
  (** m.py_field_name *)
  Variable pyname : str -> str.

  (** compiler/field.py:13-20, 224-237 *)
  Definition field_emit (f : cfield) : res unit :=
    match f with
    | CSlot _ _ _ t explicit _ _ => emit_slot pyx text_type t explicit
    | CGroup _ _ _ nullable _ fs => if nullable then check fs else Ok tt
    end.

  (** compiler/struct_.py:33-40: $Py.key on a field. field_override has the
      fields with $Py.group, which are not modelled here. *)
  Definition declare_key (f : cfield) : res unit :=
    match cf_key f, f with
    | None, _ => Ok tt
    | Some _, CSlot _ _ _ t _ _ _ => if is_void t then Err KeyError else Err AssertionError
    | Some _, CGroup _ _ _ _ _ _ => Ok tt
    end.

  (** compiler/struct_.py:274-305. key_fields (PyGroup.v) is about fields of
      which only the names matter. *)
  Definition emit_key (fs : list cfield) (key : option str) : res unit :=
    match key with
    | None => Ok tt
    | Some txt =>
        let allfields := map cf_name fs in
        let txt := strip txt in
        let fieldnames := if str_eqb txt [42] then allfields else names_of txt in
        if negb (forallb (fun f => existsb (str_eqb f) allfields) fieldnames) then Err ValueError
        else Ok tt
    end.

  (** compiler/struct_.py:25-40, for the node of a group *)
  Fixpoint declare_group (f : cfield) : res unit :=
    match f with
    | CSlot _ _ _ _ _ _ _ => Ok tt
    | CGroup _ _ _ _ _ fs => do _ <- each declare_group fs; each declare_key fs
    end.
  (** compiler/struct_.py:55-95, for the node of a group *)
  Fixpoint define_group (f : cfield) : res unit :=
    match f with
    | CSlot _ _ _ _ _ _ _ => Ok tt
    | CGroup _ _ _ _ key fs =>
        do _ <- each define_group fs;
        do _ <- each field_emit fs;
        emit_key fs key
    end.

  (** ** Constructors *)

  Definition f_void (f : cfield) : bool := match f with CSlot _ _ _ t _ _ _ => is_void t | CGroup _ _ _ _ _ _ => false end.
  (** compiler/fieldtree.py:28-31 *)
  Definition in_tree (f : cfield) : bool := negb (f_void f) || cf_member f.
  (** schema_extended.py:57-74: ==, by name and codeOrder *)
  Definition same_field (f g : cfield) : bool := str_eqb (cf_name f) (cf_name g) && (cf_order f =? cf_order g).

  (** compiler/fieldtree.py:88-131: the node of a field. [force]:
      field_force_default. *)
  Definition get_default (force : option cfield) (f : cfield) : res unit :=
    if cf_member f && negb (match force with Some g => same_field f g | None => false end) then Ok tt
    else match f with
         | CSlot _ _ _ _ _ _ _ => Ok tt
         | CGroup _ _ _ true _ fs =>
             do _ <- check fs;
             match fs with
             | CSlot _ _ _ _ _ default_true _ :: _ =>
                 if default_true then Ok tt
                 else match nth_error (filter in_tree fs) 1 with Some _ => Ok tt | None => Err IndexError end
             | _ => Err ValueError      (* f_is_null.slot of a group *)
             end
         | CGroup _ _ _ false _ _ => Ok tt
         end.
  Fixpoint node (force : option cfield) (f : cfield) : res unit :=
    match f with
    | CSlot _ _ _ _ _ _ _ => get_default force f
    | CGroup _ _ _ _ _ fs =>
        do _ <- each (fun c => if in_tree c then node force c else Ok tt) fs;
        get_default force f
    end.

  (** compiler/structor.py:63-149 *)
  Fixpoint handle_node (f : cfield) : res unit :=
    match f with
    | CSlot _ _ _ (SList u) _ _ _ => do _ <- list_item_type pyx text_type u; Ok tt
    | CSlot _ _ _ _ _ _ _ => Ok tt
    | CGroup _ _ _ nullable _ fs =>
        do _ <- (if nullable then
                   match nth_error (filter in_tree fs) 1 with
                   | Some v => py_assert (str_eqb (cf_name v) value)
                   | None => Err IndexError
                   end
                 else Ok tt);
        each (fun c => if in_tree c then handle_node c else Ok tt) fs
    end.

  Fixpoint dup (l : list str) : bool :=
    match l with [] => false | x :: r => existsb (str_eqb x) r || dup r end.

  (** compiler/structor.py:20-61, compiler/struct_.py:151-204 *)
  Definition emit_ctors (fs : list cfield) : res unit :=
    let children := filter in_tree fs in
    do _ <- each (node None) children;
    do _ <- (if dup (map (fun f => pyname (cf_name f)) children) then Err ValueError else Ok tt);
    do _ <- each handle_node children;
    each (fun tag => each (node (Some tag)) (filter in_tree (filter (fun f => negb (cf_member f) || same_field f tag) fs)))
      (filter cf_member fs).

  (** ** Structs and files *)

  (** compiler/struct_.py:25-53, compiler/node.py:92, 110, 147, compiler/enum.py:16.
      The order of the nested nodes and of the groups is that of the request;
      here the nested nodes come first. *)
  Fixpoint declare (n : cnode) : res unit :=
    match n with
    | NdStruct fs _ nested => do _ <- each declare nested; do _ <- each declare_group fs; each declare_key fs
    | NdInterface => Err AssertionError
    | NdEnum | NdAnnotation | NdConst => Ok tt
    end.
  (** compiler/struct_.py:55-95, compiler/node.py:95 *)
  Fixpoint define (n : cnode) : res unit :=
    match n with
    | NdStruct fs key nested =>
        do _ <- each define nested;
        do _ <- each define_group fs;
        do _ <- each field_emit fs;
        do _ <- emit_ctors fs;
        emit_key fs key
    | _ => Ok tt
    end.
  (** compiler/request.py:105-116 *)
  Definition compile (nodes : list cnode) : res unit :=
    do _ <- each declare nodes;
    each define nodes.
End Compile.
