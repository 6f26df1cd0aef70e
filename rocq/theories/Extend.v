(** Model of the extension mechanisms: util.py:14-23 (magic_setattr), 35-41
    (extend), 43-74 (find_module, extend_module_maybe), _util.pyx (SLOTS,
    setattr_builtin), blob.py:36-38 (__extend__) and the last lines of a
    generated module (compiler/request.py:122-126). *)
From Coq Require Import Strings.String Strings.Ascii.
From Verif Require Import Base Case Options Loader.
From Coq Require Import Lists.List.
Local Notation length := Datatypes.length.
Local Open Scope list_scope.
Local Open Scope Z_scope.

(** ** Classes *)

(** A class: whether it is a heap type (a Python class) or a C type (a Cython
    class); its dictionary (values are the identities of objects); what the
    operators of the language find in its type slots for the special methods. *)
Record cls := mkcls { heap : bool; cdict : list (str * Z); cslots : list (str * Z) }.

(** CPython 3: the methods with a type slot (Objects/typeobject.c, slotdefs) *)
Definition special : list str := map lit
  ["__getattribute__"; "__getattr__"; "__setattr__"; "__delattr__"; "__repr__"; "__hash__"; "__call__";
   "__str__"; "__lt__"; "__le__"; "__eq__"; "__ne__"; "__gt__"; "__ge__"; "__iter__"; "__next__"; "__get__";
   "__set__"; "__delete__"; "__init__"; "__new__"; "__del__"; "__await__"; "__aiter__"; "__anext__";
   "__add__"; "__radd__"; "__sub__"; "__rsub__"; "__mul__"; "__rmul__"; "__mod__"; "__rmod__"; "__divmod__";
   "__rdivmod__"; "__pow__"; "__rpow__"; "__neg__"; "__pos__"; "__abs__"; "__bool__"; "__invert__";
   "__lshift__"; "__rlshift__"; "__rshift__"; "__rrshift__"; "__and__"; "__rand__"; "__xor__"; "__rxor__";
   "__or__"; "__ror__"; "__int__"; "__float__"; "__iadd__"; "__isub__"; "__imul__"; "__imod__"; "__ipow__";
   "__ilshift__"; "__irshift__"; "__iand__"; "__ixor__"; "__ior__"; "__floordiv__"; "__rfloordiv__";
   "__truediv__"; "__rtruediv__"; "__ifloordiv__"; "__itruediv__"; "__index__"; "__matmul__"; "__rmatmul__";
   "__imatmul__"; "__len__"; "__getitem__"; "__setitem__"; "__delitem__"; "__contains__"]%string.

(** _util.pyx:4-23 *)
Definition SLOTS : list str := map lit
  ["__str__"; "__repr__"; "__getattribute__"; "__getattr__"; "__setattr__"; "__delattr__"; "__cmp__";
   "__hash__"; "__call__"; "__lt__"; "__le__"; "__eq__"; "__ne__"; "__gt__"; "__ge__"; "__iter__"; "next";
   "__get__"; "__set__"; "__delete__"; "__init__"; "__new__"; "__del__"; "__add__"; "__radd__"; "__sub__";
   "__rsub__"; "__mul__"; "__rmul__"; "__div__"; "__rdiv__"; "__mod__"; "__rmod__"; "__divmod__";
   "__rdivmod__"; "__pow__"; "__rpow__"; "__neg__"; "__pos__"; "__abs__"; "__nonzero__"; "__invert__";
   "__lshift__"; "__rlshift__"; "__rshift__"; "__rrshift__"; "__and__"; "__rand__"; "__xor__"; "__rxor__";
   "__or__"; "__ror__"; "__coerce__"; "__int__"; "__long__"; "__float__"; "__oct__"; "__hex__"; "__iadd__";
   "__isub__"; "__imul__"; "__idiv__"; "__imod__"; "__ipow__"; "__ilshift__"; "__irshift__"; "__iand__";
   "__ixor__"; "__ior__"; "__floordiv__"; "__rfloordiv__"; "__truediv__"; "__rtruediv__"; "__ifloordiv__";
   "__itruediv__"; "__index__"; "__len__"; "__getitem__"; "__setitem__"; "__delitem__"; "__getslice__";
   "__setslice__"; "__delslice__"; "__contains__"]%string.

Definition mem (n : str) (l : list str) : bool := existsb (str_eqb n) l.

(** d[n] = v *)
Fixpoint put (n : str) (v : Z) (d : list (str * Z)) : list (str * Z) :=
  match d with
  | [] => [(n, v)]
  | (k, w) :: r => if str_eqb k n then (n, v) :: r else (k, w) :: put n v r
  end.
Definition get (n : str) (d : list (str * Z)) : option Z :=
  match find (fun e => str_eqb (fst e) n) d with Some e => Some (snd e) | None => None end.

(** setattr(cls, attr, value) on a heap type: type_setattro, which calls
    update_slot *)
Definition type_setattr (c : cls) (attr : str) (value : Z) : cls :=
  mkcls (heap c) (put attr value (cdict c))
        (if mem attr special then put attr value (cslots c) else cslots c).

(** _util.pyx:26-46: PyObject_GenericSetAttr touches the dictionary only *)
Definition setattr_builtin (c : cls) (attr : str) (value : Z) : res cls :=
  if mem attr SLOTS then Err TypeError
  else Ok (mkcls (heap c) (put attr value (cdict c)) (cslots c)).

(** util.py:14-23. [hack]: whether capnpy._util was compiled *)
Definition magic_setattr (hack : bool) (c : cls) (attr : str) (value : Z) : res cls :=
  if heap c then Ok (type_setattr c attr value)
  else if hack then setattr_builtin c attr value
  else Err TypeError.

(** util.py:38 *)
Definition not_copied : list str := map lit ["__dict__"; "__doc__"; "__module__"; "__weakref__"]%string.

(** util.py:35-41: the class afterwards (also if an attribute is refused), and
    whether it raised. [new]: new_class.__dict__.items() *)
Fixpoint extend (hack : bool) (c : cls) (new : list (str * Z)) : cls * res unit :=
  match new with
  | [] => (c, Ok tt)
  | (key, value) :: r =>
      if mem key not_copied then extend hack c r
      else match magic_setattr hack c key value with
           | Ok c' => extend hack c' r
           | Err e => (c, Err e)
           end
  end.

(** what `c.attr` and an operator of the language find *)
Definition attribute (c : cls) (attr : str) : option Z := get attr (cdict c).
Definition operator (c : cls) (attr : str) : option Z := get attr (cslots c).

(** ** Modules *)

(** A file system, as far as .py files go: what a file does to the globals of
    the module it is executed in *)
Definition env := str -> option Z.
Definition pyfs := path -> option (env -> env).

(** util.py:43-54 *)
Fixpoint find_module (fs : pyfs) (sys_path : list path) (modname : str) : option path :=
  match sys_path with
  | [] => None
  | d :: r =>
      let f := join d (replace dot [slash] modname ++ lit ".py") in
      match fs f with Some _ => Some f | None => find_module fs r modname end
  end.

(** util.py:57-61: filename.new(purebasename=..., ext='.py') *)
Definition extmod_of (filename : path) : path :=
  removelast filename ++ [purebasename filename ++ lit "_extended" ++ lit ".py"].

(** util.py:56-74: the file executed, if any *)
Definition extension_file (fs : pyfs) (sys_path : list path) (filename : option path) (modname : option str)
  : lres (option path) :=
  match filename, modname with
  | Some f, _ => Ret (match fs (extmod_of f) with Some _ => Some (extmod_of f) | None => None end)
  | None, Some m => Ret (find_module fs sys_path (m ++ lit "_extended"))
  | None, None => Raise LValue
  end.

(** compiler/request.py:104-126: the definitions of the module, then
    _extend_module_maybe(globals(), ...) with __schema__ (load_schema) or with
    __name__ (standalone) *)
Definition run_module (fs : pyfs) (sys_path : list path) (standalone : bool) (schema : path) (name : str)
    (definitions : env) : env :=
  match (if standalone then extension_file fs sys_path None (Some name)
         else extension_file fs sys_path (Some schema) None) with
  | Ret (Some f) => match fs f with Some code => code definitions | None => definitions end
  | _ => definitions
  end.
