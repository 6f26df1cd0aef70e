(** Specification for C80: the texts that stand for names of classes and item
    types in the generated code, the meaning of a name, which methods of a
    class are those of a text, how values of the model look in the runtime. *)
From Coq Require Import Strings.String.
From Verif Require FloatBits GenText.
From Verif Require Import Base Spec Struct List CopyList Case Loader ReprSpec PyExpr Ctor PySyntax PyRun GenRun.
From Coq Require Import Lists.List.
Local Notation length := Datatypes.length.
Local Open Scope string_scope.
Local Open Scope list_scope.
Local Open Scope Z_scope.

(** names of Python, other than keywords *)
Definition py_name (n : str) : Prop := ident n = true /\ keyword n = false.
(** the first letter of the names of classes, modules and functions is an
    uppercase letter or an underscore; that of the names of fields is not
    (_buf is a variable of __init__) *)
Definition upper_or_underscore (n : str) : bool :=
  match n with c :: _ => ((65 <=? c) && (c <=? 90)) || (c =? 95) | [] => false end.

(** A, A.B, mod.A.B, ... *)
Inductive cls_text : str -> pexp -> Prop :=
| ct_name n : py_name n -> upper_or_underscore n = true -> n <> lit "_buf" -> cls_text n (xVar n)
| ct_dot s e n : cls_text s e -> py_name n -> cls_text (s ++ lit "." ++ n) (xDot e n).
(** f(), f(x), where x is one of these *)
Inductive item_text : str -> pexp -> Prop :=
| it_cls s e : cls_text s e -> item_text s e
| it_none s e : cls_text s e -> item_text (s ++ lit "()") (xApp e [] [])
| it_app s e t x : cls_text s e -> item_text t x -> item_text (s ++ lit "(" ++ t ++ lit ")") (xApp e [x] []).
(** the text [s], where no variable hides a name in it, is the value [v] *)
Definition means (w : world) (s : str) (v : xv) : Prop :=
  exists e, item_text s e /\ forall depth st, ev (rt w depth) [] (fun _ => None) e st = Ok (v, st).
Definition means_class (w : world) (s : str) (c : str) : Prop :=
  exists e, cls_text s e /\ forall depth st, ev (rt w depth) [] (fun _ => None) e st = Ok (XCls c, st).

(** the text [s] is that of a float whose bits are [b], a minus sign being an
    operator *)
Definition float_literal (s : str) : Prop :=
  match s with c :: _ => digit c = true | [] => False end /\ number_literal s = Some (EFloat s, []).
Definition float_reads (w : world) (s : str) (b : Z) : Prop :=
  (float_literal s /\ w_float w s = b) \/
  (exists r, s = 45 :: r /\ float_literal r /\ Z.lxor (w_float w r) (2 ^ 63) = b).

(** the class [c] has the methods defined in the text [ls] *)
Definition defines (w : world) (c : str) (k : nat) (ls : list str) : Prop :=
  exists l, reads_as k ls l /\
  forall d n ps b, In (qDef d n ps b) l -> last_def (w_body w c) n = Some (d, ps, b).
(** no method of the class has the name of something that Struct has *)
Definition runtime_names : list string :=
  struct_methods ++ ["_seg"; "_data_offset"; "_ptrs_offset"; "_data_size"; "_ptrs_size"; "_init_from_buffer"; "_init_from_pointer";
                     "__new__"; "from_buffer"; "_new"].
Definition keeps (w : world) (c : str) : Prop :=
  forall n, In n runtime_names -> last_def (w_body w c) (lit n) = None.

(** what the names in the text of a slot refer to; [c']: the class of a struct
    field; the bits of a default *)
Definition refers (w : world) (fl : Z -> str) (nms : GenText.names) (t : ftype) (d : Z) (c' : str) : Prop :=
  match t with
  | TStruct => means_class w (GenText.n_cls nms) c' /\ keeps w c'
  | TEnum => exists ce, means_class w (GenText.n_enum nms) ce /\ keeps w ce
  | TList it => means w (GenText.n_item nms) (XItem it)
  | TFloat32 => 0 <= d < 2 ^ 32 /\ float_reads w (fl (FloatBits.to64 d)) (FloatBits.to64 d)
  | TFloat64 => float_reads w (fl d) d
  | _ => True
  end.

(** what a getter gives, and the state after it: a struct is the object which
    has just been made; [o]: the object itself; [c']: the class of a struct field *)
Definition shows (o : obj) (c' : str) (v : gval) (s : st) : xv * st :=
  match v with
  | GNone => (XV PNone, s)
  | GInt z => (XV (PInt z), s)
  | GBool b => (XV (PBool b), s)
  | GF32 bits => (XV (PFloat (FloatBits.to64 bits)), s)
  | GF64 bits => (XV (PFloat bits), s)
  | GBytes b => (XV (PBytes b), s)
  | GObj x => (XNew c', mkst (s_buf s) (Some x))
  | GList l => (XV (PList l), s)
  | GAny off => (XAny o off, s)
  end.

(** the object [v] is the value [g] of a getter: a struct is an instance of
    the class [c'], perhaps the one which has just been made *)
Definition object (c' : str) (x : obj) (v : xv) (s : st) : Prop := v = XObj c' x \/ (v = XNew c' /\ s_new s = Some x).
Definition seen (o : obj) (c' : str) (g : gval) (v : xv) (s : st) : Prop :=
  match g with
  | GNone => v = XV PNone
  | GInt z => v = XV (PInt z)
  | GBool b => v = XV (PBool b)
  | GF32 bits => v = XV (PFloat (FloatBits.to64 bits))
  | GF64 bits => v = XV (PFloat bits)
  | GBytes b => v = XV (PBytes b)
  | GObj x => object c' x v s
  | GList l => v = XV (PList l)
  | GAny off => v = XAny o off
  end.
(** a call gives the value of a getter, or raises its exception *)
Definition gives (r : res (xv * st)) (o : obj) (c' : str) (m : res gval) : Prop :=
  match m with
  | Ok g => exists v s, r = Ok (v, s) /\ seen o c' g v s
  | Err e => r = Err e
  end.

(** ** Constructors *)

(** what the names in the text of a constructor refer to; [nm]: the names of
    each field; [union]: the field is in a struct or group with a union *)
Fixpoint described (w : world) (fl : Z -> str) (nm : string -> string -> GenText.names) (union : bool) (prefix : string) (f : field) : Prop :=
  let name := f_name f in
  py_name (lit name) /\ upper_or_underscore (lit name) = false /\ (is_member f = true -> union = true) /\
  match f with
  | FSlot n _ _ t _ _ d =>
      (exists c, refers w fl (nm prefix n) t d c) /\
      (* the text between the quotes of an error message *)
      (t = TAny -> forall c, In c (GenText.n_repr (nm prefix n)) -> c <> 39 /\ c <> 92 /\ c <> 10)
  | FGroup n _ _ nullable utag fs =>
      let v := varname prefix n in
      existsb visible fs = true /\
      (nullable = true -> exists fi fv, fs = [fi; fv] /\ f_name fi = "is_null" /\ f_name fv = "value" /\ visible fi = true /\ visible fv = true /\
                                        match fi with FSlot _ _ _ _ _ _ _ => True | _ => False end) /\
      (fix all l := match l with
                    | [] => True
                    | g :: r => (visible g = true -> described w fl nm (match utag with Some _ => true | None => false end) v g) /\ all r
                    end) fs
  end.

(** the same, for all the fields of a struct; __init__ has self and new_foo has
    cls as its first parameter *)
Record node_described (w : world) (fl : Z -> str) (nm : string -> string -> GenText.names) (sn : struct_node) : Prop := mknode {
  nd_fields : forall f, In f (sn_fields sn) -> visible f = true -> described w fl nm (match sn_utag sn with Some _ => true | None => false end) "" f;
  nd_names : NoDup (map f_name (filter visible (sn_fields sn)));
  nd_self : forall f, In f (sn_fields sn) -> visible f = true -> f_name f <> "self" /\ (existsb is_member (sn_fields sn) = true -> f_name f <> "cls") }.

(** a call of Python: positional arguments, and keyword arguments *)
Definition keyword_arg (kw : string * pyval) : str * xv := (lit (fst kw), XV (snd kw)).
Definition calls (w : world) (depth : nat) (f : xv) (args : list pyval) (kws : list (string * pyval)) (s : st) : res (xv * st) :=
  r_call (rt w depth) f (map XV args) (map keyword_arg kws) s.
Definition calls_method (w : world) (depth : nat) (o : xv) (n : str) (args : list pyval) (kws : list (string * pyval)) (s : st) : res (xv * st) :=
  do (f, s) <- r_attr (rt w depth) o n s; calls w depth f args kws s.
(** more positional arguments than there are parameters, or one of these has a
    keyword argument too *)
Definition clash (names : list string) (args : list pyval) (kws : list (string * pyval)) : bool :=
  negb (length args <=? length names)%nat || existsb (fun kw => existsb (String.eqb (fst kw)) (firstn (length args) names)) kws.
(** a positional argument is the keyword argument of its parameter *)
Definition with_args {A} (names : list string) (args : list pyval) (kws : list (string * pyval)) (f : list (string * pyval) -> res A) : res A :=
  if clash names args kws then Err TypeError else f (combine names args ++ kws).

(** a call gives the object [o] of the class [c], or raises its exception *)
Definition makes (r : res (xv * st)) (c : str) (m : res obj) : Prop :=
  match m with
  | Ok o => exists v s, r = Ok (v, s) /\ object c o v s
  | Err e => r = Err e
  end.
