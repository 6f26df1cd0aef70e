(** Model of the item types as Python objects, with their identity:
    capnpy/type.py, ItemType.from_type (list.py:105-160), the constructors and
    get_type() of the item types (list.py:181-388), the objects that the
    getter of a list field uses (compiler/misc.py:33-82 evaluated at each
    access, compiler/field.py:184-198), AnyPointer.as_list, and List._equals
    with the comparison of types by identity. *)
From Coq Require Import Strings.String.
From Verif Require Import Base Spec Ptr Segment Builder Struct List Query Case Options Loader Names Const ConstSpec.
From Coq Require Import Lists.List.
Local Notation length := Datatypes.length.
Local Open Scope list_scope.
Local Open Scope Z_scope.

(** What can be given for the type of the items (list.py:107-127): Types.name,
    Python's own types, a struct class, the class Struct itself, an enum
    class, a Python list, anything else *)
Inductive pyt :=
| TyBuiltin (name : str) | TyInt | TyFloat | TyBytes | TyUnicode
| TyStruct (r : cref) | TyStructBase | TyEnum (r : cref) | TyList (l : list pyt) | TyOther.

(** type.py:33-46: the format of Types.name *)
Definition types : list (str * option Z) :=
  [(lit "void", None); (lit "bool", None);
   (lit "int8", Some 98); (lit "uint8", Some 66); (lit "int16", Some 104); (lit "uint16", Some 72);
   (lit "int32", Some 105); (lit "uint32", Some 73); (lit "int64", Some 113); (lit "uint64", Some 81);
   (lit "float32", Some 102); (lit "float64", Some 100); (lit "text", None); (lit "data", None)].
(** struct.calcsize of one of these characters *)
Definition calcsize (fmt : Z) : Z :=
  if (fmt =? 98) || (fmt =? 66) then 1
  else if (fmt =? 104) || (fmt =? 72) then 2
  else if (fmt =? 105) || (fmt =? 73) || (fmt =? 102) then 4
  else 8.

(** An instance of a class of item types: its address (what [is] compares),
    and its attributes item_length and size_tag, and what get_type() needs *)
Inductive iobj := IObject (addr : Z) (length size_tag : Z) (k : ikind_of)
with ikind_of :=
| OVoid | OBool | OPrim (name : str) | OText (unicode : bool) | OData | OStruct (r : cref) | OEnum (r : cref) | OList (inner : iobj).
Definition iaddr (i : iobj) : Z := match i with IObject a _ _ _ => a end.
Definition ilength (i : iobj) : Z := match i with IObject _ l _ _ => l end.
Definition itag (i : iobj) : Z := match i with IObject _ _ t _ => t end.
Definition ikind (i : iobj) : ikind_of := match i with IObject _ _ _ k => k end.

(** list.py:228-240: the part of PrimitiveItemType.__init__ after calcsize *)
Definition prim_tag (length : Z) : res Z :=
  if length =? 1 then Ok LIST_SIZE_8
  else if length =? 2 then Ok LIST_SIZE_16
  else if length =? 4 then Ok LIST_SIZE_32
  else if length =? 8 then Ok LIST_SIZE_64
  else Err ValueError.
(** PrimitiveItemType(Types.name), a new object at address [a] *)
Definition new_prim (a : Z) (name : str) (k : ikind_of) : res iobj :=
  match assoc name types with
  | Some (Some fmt) => do tag <- prim_tag (calcsize fmt); Ok (IObject a (calcsize fmt) tag k)
  | _ => Err TypeError
  end.

Section sizes.
  (** __static_data_size__ and __static_ptrs_size__ of a class *)
  Variable sizes : cref -> Z * Z.

  (** list.py:181-186, 203-208, 275-282, 309-317, 340-346, 360-365 *)
  Definition new_void (a : Z) : iobj := IObject a 0 LIST_SIZE_VOID OVoid.
  Definition new_bool (a : Z) : iobj := IObject a (-1) LIST_SIZE_BIT OBool.
  Definition new_text (a : Z) (unicode : bool) : iobj := IObject a 8 LIST_SIZE_PTR (OText unicode).
  Definition new_data (a : Z) : iobj := IObject a 8 LIST_SIZE_PTR OData.
  Definition new_structs (a : Z) (r : cref) : iobj := IObject a ((fst (sizes r) + snd (sizes r)) * 8) LIST_SIZE_COMPOSITE (OStruct r).
  (** list.py:257-262: PrimitiveItemType.__init__(self, Types.int16) *)
  Definition new_enum (a : Z) (r : cref) : res iobj := new_prim a (lit "int16") (OEnum r).
  Definition new_list_of (a : Z) (inner : iobj) : iobj := IObject a 8 LIST_SIZE_PTR (OList inner).

  (** list.py:129-160 (ItemType.from_type). The second argument is the first
      free address, and the result has the next one. *)
  Fixpoint from_type (t : pyt) (a : Z) : res (iobj * Z) :=
    match t with
    | TyBuiltin n =>
        if str_eqb n (lit "void") then Ok (new_void a, a + 1)
        else if str_eqb n (lit "bool") then Ok (new_bool a, a + 1)
        else if str_eqb n (lit "text") then Err NotImplementedError
        else if str_eqb n (lit "data") then Ok (new_data a, a + 1)
        else match assoc n types with
             | Some (Some _) => do i <- new_prim a n (OPrim n); Ok (i, a + 1)
             | _ => Err NotImplementedError
             end
    | TyInt => do i <- new_prim a (lit "int64") (OPrim (lit "int64")); Ok (i, a + 1)
    | TyFloat => do i <- new_prim a (lit "float64") (OPrim (lit "float64")); Ok (i, a + 1)
    | TyBytes => Ok (new_text a false, a + 1)
    | TyUnicode => Ok (new_text a true, a + 1)
    | TyStruct r => Ok (new_structs a r, a + 1)
    | TyStructBase => Err AttributeError
    | TyEnum r => do i <- new_enum a r; Ok (i, a + 1)
    | TyList l =>
        match l with
        | [t] => do (inner, a) <- from_type t a; Ok (new_list_of a inner, a + 1)
        | _ => Err ValueError
        end
    | TyOther => Err NotImplementedError
    end.

  (** ** The objects used by the getter of a field *)

  (** The address of the one object made when a module is imported for each
      struct and enum (compiler/struct_.py:91-94, compiler/enum.py:18) and, in
      Cython, for each builtin type (list.py:390-412) *)
  Variable home : ity -> Z.

  (** misc.py:33-82: the object that the emitted text gives when it is
      evaluated (Const.list_item_type has the text itself, C62 what it
      means). *)
  Fixpoint field_item_type (pyx : bool) (text_type : Z) (t : sty) (a : Z) : res (iobj * Z) :=
    (* the shared object at [h], or a new one at [a] *)
    let at_ (shared : bool) (h : ity) (mk : Z -> res iobj) : res (iobj * Z) :=
      if shared then do i <- mk (home h); Ok (i, a) else do i <- mk a; Ok (i, a + 1) in
    match t with
    | SVoid => at_ pyx JVoid (fun a => Ok (new_void a))
    | SBool => at_ pyx JBool (fun a => Ok (new_bool a))
    | SInt f => at_ pyx (JPrim (int_name f)) (fun a => new_prim a (int_name f) (OPrim (int_name f)))
    | SFloat32 => at_ pyx (JPrim (lit "float32")) (fun a => new_prim a (lit "float32") (OPrim (lit "float32")))
    | SFloat64 => at_ pyx (JPrim (lit "float64")) (fun a => new_prim a (lit "float64") (OPrim (lit "float64")))
    | SText =>
        if text_type =? tt_bytes then at_ pyx (JText false) (fun a => Ok (new_text a false))
        else if text_type =? tt_unicode then at_ pyx (JText true) (fun a => Ok (new_text a true))
        else Err NotImplementedError
    | SData => at_ pyx JData (fun a => Ok (new_data a))
    | SStruct r => at_ (negb pyx || negb (is_imported r)) (JStruct r) (fun a => Ok (new_structs a r))
    | SEnum r => at_ (negb pyx || negb (is_imported r)) (JEnum r) (fun a => new_enum a r)
    | SList t => do (inner, a) <- field_item_type pyx text_type t a; Ok (new_list_of a inner, a + 1)
    | SInterface | SAny => Err NotImplementedError
    end.

  (** the item type as List.v has it *)
  Fixpoint plain (i : iobj) : ity :=
    match i with
    | IObject _ _ _ k =>
        match k with
        | OVoid => JVoid | OBool => JBool | OPrim n => JPrim n | OText u => JText u | OData => JData
        | OStruct r => JStruct r | OEnum r => JEnum r | OList inner => JList (plain inner)
        end
    end.
  Definition model (i : iobj) : itype := model_item sizes (plain i).

  (** anypointer.py:44-55 (as_list), with a type or with an item type *)
  Inductive given := GType (t : pyt) | GItem (i : iobj).
  Definition ap_as_list_of (o : obj) (offset : Z) (g : given) (a : Z) : res (option (lobj * iobj) * Z) :=
    do (i, a) <- match g with GType t => from_type t a | GItem i => Ok (i, a) end;
    do l <- o_read_list o offset (model i);
    Ok (match l with Some l => Some (l, i) | None => None end, a).

  (** compiler/field.py:189-190: the getter of a field List(t) *)
  Definition get_list (pyx : bool) (text_type : Z) (t : sty) (o : obj) (offset a : Z) : res (option (lobj * iobj) * Z) :=
    do (i, a) <- field_item_type pyx text_type t a;
    do l <- o_read_list o offset (model i);
    Ok (match l with Some l => Some (l, i) | None => None end, a).

  (** get_type() == get_type() (list.py:187, 209, 242, 264, 284, 319, 367): the
      Types and the classes are unique objects; both text item types answer
      Types.text; for a list of lists it is ('list', inner), where the inner
      item types have no __eq__. *)
  Definition type_eqb (i j : iobj) : bool :=
    match ikind i, ikind j with
    | OVoid, OVoid | OBool, OBool | OText _, OText _ | OData, OData => true
    | OPrim n, OPrim m => str_eqb n m
    | OStruct r, OStruct r' | OEnum r, OEnum r' =>
        (if list_eq_dec (list_eq_dec Z.eq_dec) (cr_path r) (cr_path r') then true else false) &&
        match cr_file r, cr_file r' with None, None => true | Some x, Some y => str_eqb x y | _, _ => false end
    | OList x, OList y => iaddr x =? iaddr y
    | _, _ => false
    end.

  (** list.py:87-96 (List._equals) of two capnpy lists *)
  Definition lists_equal (fuel : nat) (x y : lobj * iobj) : res bool :=
    match ikind (snd x) with
    | OStruct _ => Err TypeError
    | _ =>
        if (l_count (fst x) =? l_count (fst y)) && type_eqb (snd x) (snd y) then
          do u <- l_get_slice fuel (fst x);
          do w <- l_get_slice fuel (fst y);
          Ok (if list_eq_dec Byte.byte_eq_dec u w then true else false)
        else Ok false
    end.
End sizes.
