(** Model of capnpy/enum.py and of the enum getters (compiler/field.py:94-104).
    Names are strings as in Case.v. *)
From Verif Require Import Base Spec Ptr Segment Struct Case.

(** Python's t[i] on a tuple: a negative index counts from the end *)
Definition tuple_get {A} (t : list A) (i : Z) : res A :=
  let j := if i <? 0 then i + blen t else i in
  if (j <? 0) || (blen t <=? j) then Err IndexError
  else match nth_error t (Z.to_nat j) with Some x => Ok x | None => Err IndexError end.

(** The name of a value: a member name, or 'unknown<%d>' % value *)
Inductive ename := EName (s : str) | EUnknown (v : Z).

(** enum.py:8-12 (BaseEnum.name, the property) *)
Definition enum_name (members : list str) (v : Z) : ename :=
  match tuple_get members v with
  | Ok s => EName s
  | Err _ => EUnknown v
  end.

(** Class attributes: the property [name] of BaseEnum, or an instance of the
    enum set by fill_enum *)
Inductive eattr := AttrProperty | AttrMember (v : Z).

(** enum.py:20-23 (fill_enum): later assignments win; the attributes of
    BaseEnum come last in the lookup (only [name] is listed) *)
Definition s_name : str := [110; 97; 109; 101].
Fixpoint fill_from (i : Z) (members : list str) : list (str * eattr) :=
  match members with
  | [] => []
  | m :: r => (m, AttrMember i) :: fill_from (i + 1) r
  end.
Definition enum_attrs (members : list str) : list (str * eattr) :=
  rev (fill_from 0 members) ++ [(s_name, AttrProperty)].
Fixpoint lookup {A} (n : str) (l : list (str * A)) : option A :=
  match l with
  | [] => None
  | (m, a) :: r => if str_eqb n m then Some a else lookup n r
  end.

(** [Color.red] *)
Definition enum_attr (members : list str) (n : str) : option eattr := lookup n (enum_attrs members).

(** [str(x)] for an instance x: self.name is the property, unless the class attribute was
    replaced by fill_enum (a member called [name]); [str(x)] and [repr(x)] use self.name (enum.py:14-18) and a name that is
    not a string makes them raise TypeError *)
Definition enum_str (members : list str) (v : Z) : res ename :=
  match enum_attr members s_name with
  | Some AttrProperty => Ok (enum_name members v)
  | Some (AttrMember _) => Err TypeError
  | None => Err AttributeError
  end.

(** compiler/field.py:94-104 (enum getter): the raw value, signed *)
Definition get_enum (o : obj) (offset dflt : Z) : res Z :=
  do value <- o_read_primitive o offset Fh;
  Ok (if negb (dflt =? 0) then Z.lxor value dflt else value).
