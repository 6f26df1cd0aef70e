(** Specification for C82: the methods of a class, by the names that the
    documentation gives them, and what it means that a class is made from its
    text. *)
From Coq Require Import Strings.String.
From Verif Require FloatBits GenText ClassText.
From Verif Require Import Base Spec Struct List CopyList Case Loader PyExpr Ctor PySyntax PyRun GenRun TextSpec.
From Coq Require Import Lists.List.
Local Notation length := Datatypes.length.
Local Open Scope string_scope.
Local Open Scope list_scope.
Local Open Scope Z_scope.

(** obj.foo; obj.get_foo() and obj.has_foo() for pointers; obj._foo behind a
    nullable group; Cls.Foo for the other groups *)
Definition field_methods (f : field) : list str :=
  match f with
  | FSlot n _ _ t _ _ _ =>
      lit n :: match t with
               | TText | TData | TStruct | TList _ => [lit ("get_" ++ n); lit ("has_" ++ n)]
               | TAny => [lit ("has_" ++ n)]
               | _ => []
               end
  | FGroup n _ _ nullable _ _ => if nullable then [lit n; lit ("_" ++ n)] else [lit n; GenText.like_name (lit n)]
  end.
(** obj.is_foo() and Cls.new_foo for the members of the union; no constructors in a group *)
Definition class_methods (group : bool) (sn : struct_node) : list str :=
  let members := filter is_member (sn_fields sn) in
  map (fun f => lit ("is_" ++ f_name f)) members ++
  flat_map field_methods (sn_fields sn) ++
  if group then [] else [lit "__new"; lit "__init__"] ++ map (fun f => lit ("new_" ++ f_name f)) members.

(** the functions defined in a body *)
Definition defs (l : list pstmt) : list str := flat_map (fun q => match q with qDef _ n _ _ => [n] | _ => [] end) l.

(** what the names in the text of a field refer to, c': the class of a struct
    field or of a group *)
Definition field_refers (w : world) (fl : Z -> str) (nm : string -> string -> GenText.names) (union : bool) (f : field) (c' : str) : Prop :=
  py_name (lit (f_name f)) /\
  match f with
  | FSlot n _ _ t _ _ d => refers w fl (nm "" n) t d c'
  | FGroup n _ _ nullable _ fs =>
      means_class w (GenText.n_group (nm "" n)) c' /\ keeps w c' /\
      (nullable = false -> py_name (GenText.like_name (lit n)) /\ NoDup (map f_name (filter visible fs)) /\ described w fl nm union "" f)
  end.

(** the members of the union are numbered from 0 *)
Definition numbered (fs : list field) : Prop :=
  let members := filter is_member fs in
  NoDup (map f_disc members) /\ forall f d, In f members -> f_disc f = Some d -> 0 <= d < Z.of_nat (length members).

(** the names in the text of the class [c], whose name in it is [cls] *)
Record class_described (w : world) (fl : Z -> str) (nm : string -> string -> GenText.names) (cls c : str) (group : bool) (sn : struct_node) : Prop := mkcd {
  mc_cls : means_class w cls c;
  mc_fields : forall f, In f (sn_fields sn) -> exists c', field_refers w fl nm (match sn_utag sn with Some _ => true | None => false end) f c';
  mc_ctor : group = false -> node_described w fl nm sn;
  mc_union : numbered (sn_fields sn) /\ (sn_utag sn = None -> filter is_member (sn_fields sn) = []) }.
(** no two methods of the class have the same name, none that of a method of Struct *)
Definition names_apart (group : bool) (sn : struct_node) : Prop :=
  NoDup (class_methods group sn) /\ forall n, In n (class_methods group sn) -> ~ In n (map lit runtime_names).
(** the class is made from its text; the rest of its body defines no method
    with one of these names *)
Definition from_text (w : world) (c : str) (group : bool) (sn : struct_node) (k : nat) (text : list str) : Prop :=
  w_utag w c = sn_utag sn /\
  exists before l after, reads_as k text l /\ w_body w c = before ++ l ++ after /\
  forall n, In n (defs (before ++ after)) -> ~ In n (class_methods group sn) /\ ~ In n (map lit runtime_names).
Record made_class (w : world) (fl : Z -> str) (nm : string -> string -> GenText.names) (k : nat) (cls c : str) (group : bool) (sn : struct_node) : Prop := mkmade {
  mc_described : class_described w fl nm cls c group sn;
  mc_names : names_apart group sn;
  mc_text : from_text w c group sn k (ClassText.class_text fl nm k cls group sn) }.
