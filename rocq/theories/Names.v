(** Model of the names a generated module defines: the attributes of a struct
    class (compiler/struct_.py:55-95, 119-149, 151-204, 206-246, 274-305;
    compiler/field.py) and the names of the module (compiler/node.py:73-92,
    104-178; compiler/struct_.py:25-100; compiler/enum.py:15-25).
    Python mode. *)
From Coq Require Import Strings.String Strings.Ascii.
From Verif Require Import Base Case Loader.
From Coq Require Import Lists.List.
Local Notation length := Datatypes.length.

(** ** The body of a class *)

Inductive fkind := KVoid | KScalar | KPointer | KAnyPointer | KGroup | KNullable.

(** A field: its name in Python (module.py:148-158), what it is, its
    discriminant if it is a member of the union *)
Record fdesc := mkfdesc { fd_py : str; fd_kind : fkind; fd_union : option Z }.
Record cdesc := mkcdesc {
  c_name : str;              (* compile_name *)
  c_group : bool;
  c_children : list str;     (* short names of nested structs, enums and constants *)
  c_count : nat;             (* discriminantCount *)
  c_fields : list fdesc;
  c_keyed : bool }.          (* $Py.key *)

(** What an attribute is *)
Inductive attr :=
| AProp (f : fdesc)      (* the property that reads the field *)
| APriv (f : fdesc)      (* the property that reads the group of a nullable field *)
| AGet (f : fdesc) | AHas (f : fdesc) | ANew (f : fdesc)
| AIs (tag : Z)          (* compares the tag *)
| ALike (f : fdesc)      (* the constructor-like static method of a group *)
| AChild (c : str)
| AOther (n : str).      (* anything else the class needs, under the name it needs *)

Definition property_ : str := lit "property".
Definition staticmethod_ : str := lit "staticmethod".
Definition classmethod_ : str := lit "classmethod".

(** One statement of a class body: decorator, name, what is bound to it *)
Record item := mkitem { it_deco : option str; it_name : str; it_attr : attr }.

(** str.capitalize *)
Definition upper1 (c : Z) : Z := if is_lower c then c - 32 else c.
Definition capitalize (s : str) : str :=
  match s with [] => [] | c :: r => upper1 c :: lower r end.

(** field.py:60-272 *)
Definition field_items (f : fdesc) : list item :=
  match fd_kind f with
  | KVoid | KScalar => [mkitem (Some property_) (fd_py f) (AProp f)]
  | KPointer =>
      [mkitem (Some property_) (fd_py f) (AProp f);
       mkitem None (lit "get_" ++ fd_py f) (AGet f);
       mkitem None (lit "has_" ++ fd_py f) (AHas f)]
  | KAnyPointer =>
      [mkitem (Some property_) (fd_py f) (AProp f);
       mkitem None (lit "has_" ++ fd_py f) (AHas f)]
  | KGroup =>
      [mkitem (Some property_) (fd_py f) (AProp f);
       mkitem (Some staticmethod_) (capitalize (fd_py f)) (ALike f)]
  | KNullable =>
      [mkitem (Some property_) (fd_py f) (AProp f);
       mkitem (Some property_) (lit "_" ++ fd_py f) (APriv f)]
  end.

(** struct_.py:102-109: enum_items; a tag without a field stays None *)
Definition tag_is (i : nat) (f : fdesc) : bool :=
  match fd_union f with Some d => d =? Z.of_nat i | None => false end.
Definition enum_item (fs : list fdesc) (i : nat) : str :=
  match find (tag_is i) (rev fs) with Some f => fd_py f | None => lit "None" end.

(** struct_.py:119-149 *)
Definition union_items (c : cdesc) : list item :=
  match c_count c with
  | O => []
  | n => mkitem None (lit "__tag__") (AOther (lit "__tag__"))
         :: mkitem None (lit "__tag_offset__") (AOther (lit "__tag_offset__"))
         :: map (fun i => mkitem None (lit "is_" ++ enum_item (c_fields c) i) (AIs (Z.of_nat i))) (seq 0 n)
  end.

(** struct_.py:151-204: private names are mangled (`__new`) *)
Definition ctor_items (c : cdesc) : list item :=
  if c_group c then []
  else
    mkitem (Some staticmethod_) (lit "_" ++ c_name c ++ lit "__new") (AOther (lit "_" ++ c_name c ++ lit "__new"))
    :: mkitem None (lit "__init__") (AOther (lit "__init__"))
    :: flat_map (fun f => match fd_union f with
                          | Some _ => [mkitem (Some classmethod_) (lit "new_" ++ fd_py f) (ANew f)]
                          | None => [] end) (c_fields c).

(** struct_.py:55-95 *)
Definition class_items (c : cdesc) : list item :=
  map (fun n => mkitem None n (AOther n))
    [lit "__capnpy_id__"; lit "__static_data_size__"; lit "__static_ptrs_size__"]
  ++ map (fun n => mkitem None n (AChild n)) (c_children c)
  ++ union_items c
  ++ flat_map field_items (c_fields c)
  ++ ctor_items c
  ++ [mkitem None (lit "shortrepr") (AOther (lit "shortrepr"))]
  ++ (if c_keyed c then [mkitem None (lit "_key") (AOther (lit "_key"))] else []).

(** Python: the namespace of a class body, the latest binding first *)
Fixpoint get_attr (ns : list (str * attr)) (n : str) : option attr :=
  match ns with
  | [] => None
  | (k, a) :: r => if str_eqb k n then Some a else get_attr r n
  end.

(** Python: executing a class body. A decorator is looked up in the namespace
    of the class before the builtins; whatever is found there (a property, a
    constant) cannot be called. *)
Fixpoint exec_class (ns : list (str * attr)) (l : list item) : res (list (str * attr)) :=
  match l with
  | [] => Ok ns
  | x :: r =>
      match it_deco x with
      | Some d =>
          match get_attr ns d with
          | Some _ => Err TypeError
          | None => exec_class ((it_name x, it_attr x) :: ns) r
          end
      | None => exec_class ((it_name x, it_attr x) :: ns) r
      end
  end.

(** ** Specification *)
Definition starts (p : Z -> bool) (s : str) : Prop := exists c r, s = c :: r /\ p c = true.
Definition pointerish (k : fkind) : Prop := k = KPointer \/ k = KAnyPointer.

(** What capnp guarantees: names of fields start with a lower case letter,
    names of nested declarations with a letter and have no underscore, all
    names of one scope are different; discriminants are different numbers
    below their count. (After the conversion to Python names the fields are
    still different: C45, C42.) *)
Record capnp_class (c : cdesc) : Prop := {
  cc_name : starts is_upper (c_name c);
  cc_lower : forall f, In f (c_fields c) -> starts is_lower (fd_py f);
  cc_distinct : forall f g, In f (c_fields c) -> In g (c_fields c) -> fd_py f = fd_py g -> f = g;
  cc_child : forall n, In n (c_children c) -> starts (fun x => is_lower x || is_upper x) n /\ ~ In underscore n;
  cc_child_field : forall n f, In n (c_children c) -> In f (c_fields c) -> fd_py f <> n;
  cc_tags : forall f d, In f (c_fields c) -> fd_union f = Some d -> 0 <= d < Z.of_nat (c_count c);
  cc_tags_distinct : forall f g d, In f (c_fields c) -> In g (c_fields c) ->
    fd_union f = Some d -> fd_union g = Some d -> f = g;
  cc_tags_all : forall i, (i < c_count c)%nat ->
    exists f, In f (c_fields c) /\ fd_union f = Some (Z.of_nat i) }.

(** The clashes between the names that capnpy makes up and those of the schema *)
Record no_clash (c : cdesc) : Prop := {
  nc_get : forall f g, In f (c_fields c) -> In g (c_fields c) -> fd_kind g = KPointer -> fd_py f <> lit "get_" ++ fd_py g;
  nc_has : forall f g, In f (c_fields c) -> In g (c_fields c) -> pointerish (fd_kind g) -> fd_py f <> lit "has_" ++ fd_py g;
  nc_is : forall f g, In f (c_fields c) -> In g (c_fields c) -> fd_union g <> None -> fd_py f <> lit "is_" ++ fd_py g;
  nc_new : forall f g, In f (c_fields c) -> In g (c_fields c) -> fd_union g <> None -> fd_py f <> lit "new_" ++ fd_py g;
  nc_like : forall f g, In f (c_fields c) -> In g (c_fields c) -> fd_kind f = KGroup -> fd_kind g = KGroup ->
    capitalize (fd_py f) = capitalize (fd_py g) -> f = g;
  nc_like_child : forall f n, In f (c_fields c) -> fd_kind f = KGroup -> In n (c_children c) -> capitalize (fd_py f) <> n;
  nc_repr : (forall f, In f (c_fields c) -> fd_py f <> lit "shortrepr") /\ ~ In (lit "shortrepr") (c_children c);
  nc_key : c_keyed c = true -> forall f, In f (c_fields c) -> fd_kind f = KNullable -> fd_py f <> lit "key";
  nc_deco : forall d, In d [property_; staticmethod_; classmethod_] ->
    (forall f, In f (c_fields c) -> fd_py f <> d) /\ ~ In d (c_children c) }.

(** ** The names of the module *)

Inductive nkind := NStruct (union : bool) | NGroup (union : bool) | NEnum | NConst | NAnnotation.
(** A declaration of the file: the names from the top of the file down to it *)
Record ndesc := mkndesc { nd_path : list str; nd_kind : nkind }.

(** node.py:73-92 (_fullname with '_'; declarations of the same file) *)
Fixpoint join_ (p : list str) : str :=
  match p with
  | [] => []
  | [x] => x
  | x :: r => x ++ underscore :: join_ r
  end.
Definition compile_name (n : ndesc) : str := join_ (nd_path n).
Definition shortname (n : ndesc) : str := last (nd_path n) [].

(** What a module-level name is bound to *)
Inductive binding := BClass (n : ndesc) | BTag (n : ndesc) | BItem (n : ndesc) | BConst (n : ndesc)
| BAnnotation (n : ndesc).

(** struct_.py:43-52, 91-100, 111-117; enum.py:15-20; node.py:101-137 (an
    annotation is declared under its short name, whatever its scope);
    node.py:140-178 (a constant of the file; nested ones are attributes) *)
Definition node_defs (n : ndesc) : list (str * binding) :=
  match nd_kind n with
  | NStruct u | NGroup u =>
      (compile_name n, BClass n)
      :: (if u then [(compile_name n ++ lit "__tag__", BTag n)] else [])
      ++ [(lit "_" ++ compile_name n ++ lit "_list_item_type", BItem n)]
  | NEnum => [(compile_name n, BClass n); (lit "_" ++ compile_name n ++ lit "_list_item_type", BItem n)]
  | NConst => match nd_path n with [x] => [(x, BConst n)] | _ => [] end
  | NAnnotation => [(shortname n, BAnnotation n)]
  end.
Definition module_defs (ns : list ndesc) : list (str * binding) := flat_map node_defs ns.

(** a module is a dictionary: the last assignment wins *)
Definition get_name (defs : list (str * binding)) (x : str) : option binding :=
  match find (fun e => str_eqb (fst e) x) (rev defs) with Some e => Some (snd e) | None => None end.

(** ** Specification *)
(** Identifiers of capnp: not empty, no underscore *)
Definition capnp_id (s : str) : Prop := s <> [] /\ ~ In underscore s.
Record capnp_file (ns : list ndesc) : Prop := {
  cf_ids : forall n, In n ns -> nd_path n <> [] /\ Forall capnp_id (nd_path n);
  cf_distinct : forall n m, In n ns -> In m ns -> nd_path n = nd_path m -> n = m }.
(** annotations are declared at the top of the file *)
Definition annotations_on_top (ns : list ndesc) : Prop :=
  forall n, In n ns -> nd_kind n = NAnnotation -> exists x, nd_path n = [x].
