(** Specification for constants: what Python does with the text of a
    generated module ([run]), and what a constant should be ([is_value]). *)
From Coq Require Import Strings.String.
From Verif Require Import Base Spec Ptr Segment Builder Struct List Query Case Options Loader Names NamesFacts Repr ReprSpec StructFacts
  Enc ObjFacts AlignFacts Message PyExpr Const.
From Coq Require Import Lists.List.
Local Notation length := Datatypes.length.

(** ** The objects *)

(** The item types a user would expect for List(t) *)
Inductive ity :=
| JVoid | JBool | JPrim (name : str)    (* name of the builtin type *)
| JText (unicode : bool) | JData | JStruct (r : cref) | JEnum (r : cref) | JList (t : ity).

Inductive pcls := CUser (r : cref) | CRequest | COptions.

(** the classes of item types *)
Inductive ikind := IKVoid | IKBool | IKPrim | IKText | IKTextUnicode | IKStruct | IKEnum | IKList.

Inductive pyv :=
| VNone | VBool (b : bool) | VInt (z : Z) | VFloat (text : str) | VBytes (b : bytes) | VTuple (l : list pyv)
| VSeg (s : seg)                          (* a Segment or MultiSegment *)
| VObj (c : pcls) (o : obj)               (* an instance of a struct class *)
| VListO (l : lobj) (t : ity)             (* a List *)
| VItem (t : ity)                         (* an item type *)
| VType (name : str)                      (* _Types.name *)
| VCls (c : pcls) | VEnumCls (r : cref)
| VFromBuffer (c : pcls) | VListFromBuffer
| VSegment | VMultiSegment | VListCls | VTypes | VItemCls (k : ikind)
| VMod (v : str)                          (* the module imported as v *)
| VRefl (request default_options : obj)   (* _reflection_data *)
| VOther.

(** ** Where names are looked up *)

(** names of the builtin types (type.py:33-46) *)
Definition type_names : list str :=
  map lit ["void"; "bool"; "int8"; "uint8"; "int16"; "uint16"; "int32"; "uint32"; "int64"; "uint64";
           "float32"; "float64"; "text"; "data"]%string.

(** Item type of a builtin type, as list.py:396-412 builds it *)
Definition prim_names : list str :=
  map lit ["int8"; "uint8"; "int16"; "uint16"; "int32"; "uint32"; "int64"; "uint64"; "float32"; "float64"]%string.
Definition prebuilt : list (str * ity) :=
  [(lit "void", JVoid); (lit "bool", JBool)] ++ map (fun n => (n, JPrim n)) prim_names ++
  [(lit "data", JData); (lit "text_bytes", JText false); (lit "text_unicode", JText true)].

(** What the header of a generated module binds (request.py:48-90, 155-157):
    capnpy's own classes, in pyx mode also the item types of builtin types;
    and the imports of the schema *)
Definition header (pyx : bool) : list (str * pyv) :=
  [(lit "_Segment", VSegment); (lit "_MultiSegment", VMultiSegment); (lit "_List", VListCls); (lit "_Types", VTypes);
   (lit "_VoidItemType", VItemCls IKVoid); (lit "_BoolItemType", VItemCls IKBool);
   (lit "_PrimitiveItemType", VItemCls IKPrim); (lit "_TextItemType", VItemCls IKText);
   (lit "_TextUnicodeItemType", VItemCls IKTextUnicode); (lit "_StructItemType", VItemCls IKStruct);
   (lit "_EnumItemType", VItemCls IKEnum); (lit "_ListItemType", VItemCls IKList);
   (lit "_CodeGeneratorRequest", VCls CRequest); (lit "_Options", VCls COptions)]
  ++ (if pyx then map (fun e => (lit "_" ++ fst e ++ lit "_list_item_type", VItem (snd e))) prebuilt else []).

Fixpoint assoc {A} (n : str) (l : list (str * A)) : option A :=
  match l with [] => None | (k, a) :: r => if str_eqb k n then Some a else assoc n r end.

(** The imported modules: variable, declarations of the file *)
Definition imports := list (str * list ndesc).
Definition import_bindings (I : imports) : list (str * pyv) := map (fun e => (fst e, VMod (fst e))) I.

(** a class of a declaration *)
Definition decl_value (r : cref) (k : nkind) : option pyv :=
  match k with
  | NStruct _ | NGroup _ => Some (VCls (CUser r))
  | NEnum => Some (VEnumCls r)
  | _ => None
  end.

(** an attribute of the imported module [v] (Names.v). In pyx mode the item
    type of a struct is a C variable of its module, not an attribute
    (struct_.py:91-92). *)
Definition module_attr (pyx : bool) (v : str) (ns : list ndesc) (n : str) : res pyv :=
  match get_name (module_defs ns) n with
  | Some (BClass d) =>
      match decl_value (mkcref (Some v) (nd_path d)) (nd_kind d) with Some x => Ok x | None => Ok VOther end
  | Some (BItem d) =>
      match nd_kind d with
      | NEnum => Ok (VItem (JEnum (mkcref (Some v) (nd_path d))))
      | _ => if pyx then Err AttributeError else Ok (VItem (JStruct (mkcref (Some v) (nd_path d))))
      end
  | Some _ => Ok VOther
  | None => Err AttributeError
  end.

Definition path_eqb (a b : list str) : bool := if path_eq_dec a b then true else false.
(** the nested declaration [n] of an imported class *)
Definition class_attr (v : str) (ns : list ndesc) (p : list str) (n : str) : res pyv :=
  match find (fun d => path_eqb (nd_path d) (p ++ [n]) && match nd_kind d with NStruct _ | NEnum => true | _ => false end) ns with
  | Some d => match decl_value (mkcref (Some v) (nd_path d)) (nd_kind d) with Some x => Ok x | None => Err AttributeError end
  | None => Err AttributeError
  end.

(** The file [ns] declares a struct ([st]) or an enum at the path [p]; what
    is around it are structs. *)
Definition declared (st : bool) (ns : list ndesc) (p : list str) : Prop :=
  (exists d, In d ns /\ nd_path d = p /\
     match nd_kind d with NStruct _ => st = true | NEnum => st = false | _ => False end) /\
  (forall q x r, p = q ++ x :: r -> q <> [] -> exists d u, In d ns /\ nd_path d = q /\ nd_kind d = NStruct u).

(** An imported file: what capnp guarantees, annotations on top (Names.v),
    names that are not keywords, and a variable like _x_capnp
    (module.py:127-135) *)
Definition import_var (m : str) : Prop := exists x, m = lit "_" ++ x ++ lit "_capnp" /\ ident m = true.
Definition imports_ok (I : imports) : Prop := forall m ns, assoc m I = Some ns ->
  import_var m /\ capnp_file ns /\ annotations_on_top ns /\
  forall d n, In d ns -> In n (nd_path d) -> ident n = true.

Section interp.
  Variables (pyx : bool) (I : imports) (sizes : cref -> Z * Z).

  (** the item types as List.v has them; [sizes]: the static sizes of a class *)
  Definition prim_fmt (n : str) : ifmt :=
    match assoc n [(lit "int8", Fb); (lit "uint8", FB); (lit "int16", Fh); (lit "uint16", FH); (lit "int32", Fi);
                   (lit "uint32", FI); (lit "int64", Fq); (lit "uint64", FQ)] with
    | Some f => f | None => Fq end.
  Fixpoint model_item (t : ity) : itype :=
    match t with
    | JVoid => ITVoid | JBool => ITBool | JPrim n =>
        if str_eqb n (lit "float32") then ITFloat false
        else if str_eqb n (lit "float64") then ITFloat true
        else ITPrim (prim_fmt n)
    | JText _ => ITText (-1) | JData => ITText 0
    | JStruct r => ITStruct (fst (sizes r)) (snd (sizes r))
    | JEnum _ => ITPrim Fh
    | JList t => ITList (model_item t)
    end.

  Definition attr (v : pyv) (n : str) : res pyv :=
    match v with
    | VTypes => if existsb (str_eqb n) type_names then Ok (VType n) else Err AttributeError
    | VCls c =>
        if str_eqb n (lit "from_buffer") then Ok (VFromBuffer c)
        else match c with
             | CUser (mkcref (Some m) p) =>
                 match assoc m I with Some ns => class_attr m ns p n | None => Err AttributeError end
             | _ => Err AttributeError
             end
    | VListCls => if str_eqb n (lit "from_buffer") then Ok VListFromBuffer else Err AttributeError
    | VMod m => match assoc m I with Some ns => module_attr pyx m ns n | None => Err AttributeError end
    | VRefl request default_options =>
        if str_eqb n (lit "request") then Ok (VObj CRequest request)
        else if str_eqb n (lit "default_options") then Ok (VObj COptions default_options)
        else Err AttributeError
    | VObj _ o => if str_eqb n (lit "_seg") then Ok (VSeg (o_seg o)) else Err AttributeError
    | _ => Err AttributeError
    end.

  Definition as_z (v : pyv) : option Z := match v with VInt z => Some z | VBool b => Some (Z.b2z b) | _ => None end.
  Fixpoint as_zs (l : list pyv) : option (list Z) :=
    match l with
    | [] => Some []
    | v :: r => match as_z v, as_zs r with Some z, Some l => Some (z :: l) | _, _ => None end
    end.

  (** Segment(buf), MultiSegment(buf, offsets), Struct.from_buffer
      (struct_.py:42-60), List.from_buffer (list.py:14-33), the item types *)
  Definition call (f : pyv) (args : list pyv) : res pyv :=
    match f, args with
    | VSegment, [VBytes b] => Ok (VSeg {| sbuf := b; soffs := None |})
    | VMultiSegment, [VBytes b; VTuple l] =>
        match as_zs l with Some z => Ok (VSeg {| sbuf := b; soffs := Some z |}) | None => Err TypeError end
    | VFromBuffer c, [VSeg s; VInt off; VInt ds; VInt ps] => do o <- init_from_buffer s off ds ps; Ok (VObj c o)
    | VListFromBuffer, [VSeg s; VInt off; VInt tag; VInt count; VItem t] =>
        do l <- list_init s off tag count (model_item t); Ok (VListO l t)
    | VItemCls IKVoid, [] => Ok (VItem JVoid)
    | VItemCls IKBool, [] => Ok (VItem JBool)
    | VItemCls IKPrim, [VType n] => if existsb (str_eqb n) prim_names then Ok (VItem (JPrim n)) else Err TypeError
    | VItemCls IKText, [VType n] =>
        if str_eqb n (lit "text") then Ok (VItem (JText false))
        else if str_eqb n (lit "data") then Ok (VItem JData) else Err TypeError
    | VItemCls IKTextUnicode, [VType n] => if str_eqb n (lit "text") then Ok (VItem (JText true)) else Err TypeError
    | VItemCls IKStruct, [VCls (CUser r)] => Ok (VItem (JStruct r))
    | VItemCls IKEnum, [VEnumCls r] => Ok (VItem (JEnum r))
    | VItemCls IKList, [VItem t] => Ok (VItem (JList t))
    | _, _ => Err TypeError
    end.

  Definition neg (v : pyv) : res pyv :=
    match v with
    | VInt z => Ok (VInt (- z))
    | VBool b => Ok (VInt (- Z.b2z b))
    | VFloat s => Ok (VFloat (45 :: s))
    | _ => Err TypeError
    end.

  (** A name: True, False, None, then the namespace of the class body if
      there is one, then the module *)
  Definition name (locals globals : list (str * pyv)) (n : str) : res pyv :=
    if str_eqb n (lit "True") then Ok (VBool true)
    else if str_eqb n (lit "False") then Ok (VBool false)
    else if str_eqb n (lit "None") then Ok VNone
    else match assoc n locals with
         | Some v => Ok v
         | None => match assoc n globals with Some v => Ok v | None => Err NameError end
         end.

  Definition python (locals globals : list (str * pyv)) : interp pyv := {|
    i_int := VInt; i_float := VFloat; i_bytes := VBytes; i_tuple := VTuple;
    i_neg := neg; i_name := name locals globals; i_attr := attr; i_call := call |}.

  (** [text] is evaluated to [r] *)
  Inductive evals (locals globals : list (str * pyv)) (text : str) : res pyv -> Prop :=
  | ev_ok : forall e, reads text e -> evals locals globals text (eval (python locals globals) e)
  | ev_bad : (forall e, ~ reads text e) -> evals locals globals text (Err SyntaxError).

  (** the body of a class: its namespace, the latest binding first *)
  Inductive body (globals : list (str * pyv)) : list (str * pyv) -> list (str * str) -> res (list (str * pyv)) -> Prop :=
  | body_nil : forall locals, body globals locals [] (Ok locals)
  | body_cons : forall locals n text rest v r, evals locals globals text (Ok v) ->
      body globals ((n, v) :: locals) rest r -> body globals locals ((n, text) :: rest) r
  | body_err : forall locals n text rest e, evals locals globals text (Err e) ->
      body globals locals ((n, text) :: rest) (Err e).

  Definition bound_value (b : bound) : pyv :=
    match b with
    | BStruct r => VCls (CUser r)
    | BEnum r => VEnumCls r
    | BItemStruct r => VItem (JStruct r)
    | BItemEnum r => VItem (JEnum r)
    | BAnn => VOther
    end.

  (** The state of a module that is being executed: its globals, and the
      attributes of the classes *)
  Record mstate := mkmstate { ms_globals : list (str * pyv); ms_classes : list (list str * list (str * pyv)) }.

  Inductive run : mstate -> list mstmt -> res mstate -> Prop :=
  | run_nil : forall s, run s [] (Ok s)
  | run_bind : forall g cs n b rest r,
      run (mkmstate ((n, bound_value b) :: g) cs) rest r -> run (mkmstate g cs) (MBind n b :: rest) r
  | run_const : forall g cs n text rest v r, evals [] g text (Ok v) ->
      run (mkmstate ((n, v) :: g) cs) rest r -> run (mkmstate g cs) (MConst n text :: rest) r
  | run_const_err : forall g cs n text rest e, evals [] g text (Err e) -> run (mkmstate g cs) (MConst n text :: rest) (Err e)
  | run_class : forall g cs p l rest ns r, body g [] l (Ok ns) ->
      run (mkmstate g ((p, ns) :: cs)) rest r -> run (mkmstate g cs) (MClass p l :: rest) r
  | run_class_err : forall g cs p l rest e, body g [] l (Err e) -> run (mkmstate g cs) (MClass p l :: rest) (Err e)
  | run_refl : forall g cs t1 t2 rest o1 o2 r,
      evals [] g t1 (Ok (VObj CRequest o1)) -> evals [] g t2 (Ok (VObj COptions o2)) ->
      run (mkmstate ((lit "_reflection_data", VRefl o1 o2) :: g) cs) rest r ->
      run (mkmstate g cs) (MReflection t1 t2 :: rest) r.

  (** before the first statement *)
  Definition start : mstate := mkmstate (header pyx ++ import_bindings I) [].

  (** module.a.b.c *)
  Definition class_ns (s : mstate) (p : list str) : option (list (str * pyv)) :=
    match find (fun e => path_eqb (fst e) p) (ms_classes s) with Some e => Some (snd e) | None => None end.
  (** the constant [n] declared in the struct at [p] ([]: in the file) *)
  Definition get_const (s : mstate) (p : list str) (n : str) : option pyv :=
    match p with
    | [] => assoc n (ms_globals s)
    | _ => match class_ns s p with Some ns => assoc n ns | None => None end
    end.

  (** ** What a constant should be *)

  (** its item type: List(t) with text_type [tt] *)
  Fixpoint item_of (tt : Z) (t : sty) : option ity :=
    match t with
    | SVoid => Some JVoid | SBool => Some JBool
    | SInt f => Some (JPrim (int_name f)) | SFloat32 => Some (JPrim (lit "float32")) | SFloat64 => Some (JPrim (lit "float64"))
    | SText => if tt =? 1 then Some (JText false) else if tt =? 2 then Some (JText true) else None
    | SData => Some JData
    | SStruct r => Some (JStruct r) | SEnum r => Some (JEnum r)
    | SList t => match item_of tt t with Some j => Some (JList j) | None => None end
    | SInterface | SAny => None
    end.

  (** The item types of the declarations used in [t] can be named: those of
      this file are bound already; an imported declaration exists and, without
      Cython, is not nested. *)
  Definition item_visible (locals globals : list (str * pyv)) (st : bool) (r : cref) : Prop :=
    match cr_file r with
    | None => cr_path r <> [] /\ Forall (fun n => ident n = true) (cr_path r) /\
              name locals globals (item_name (cr_path r)) = Ok (VItem (if st then JStruct r else JEnum r))
    | Some m => cr_path r <> [] /\ exists ns, assoc m I = Some ns /\ declared st ns (cr_path r) /\
                (pyx = true \/ length (cr_path r) = 1%nat)
    end.
  Fixpoint items_visible (locals globals : list (str * pyv)) (t : sty) : Prop :=
    match t with
    | SList t => items_visible locals globals t
    | SStruct r => item_visible locals globals true r
    | SEnum r => item_visible locals globals false r
    | _ => True
    end.

  (** schema.capnp, struct Value: the discriminant is the 16 bits at byte 0;
      a bool is the bit 16; a number is at the first multiple of its size
      that is free; a pointer is the pointer 0. An enum is the number of its
      member. *)
  Definition value_tag (t : sty) : Z :=
    match t with
    | SVoid => 0 | SBool => 1
    | SInt Fb => 2 | SInt Fh => 3 | SInt Fi => 4 | SInt Fq => 5
    | SInt FB => 6 | SInt FH => 7 | SInt FI => 8 | SInt FQ => 9
    | SFloat32 => 10 | SFloat64 => 11 | SText => 12 | SData => 13 | SList _ => 14 | SEnum _ => 15 | SStruct _ => 16
    | SInterface => 17 | SAny => 18
    end.
  Inductive is_value (fp : floats) (tt : Z) (d : bytes) (vs : list value) : sty -> pyv -> Prop :=
  | iv_void : is_value fp tt d vs SVoid VNone
  | iv_bool : is_value fp tt d vs SBool (VBool (Z.testbit (v_prim d 2 FB) 0))
  | iv_int8 : forall f, fsize f = 1 -> is_value fp tt d vs (SInt f) (VInt (v_prim d 2 f))
  | iv_int : forall f, fsize f <> 1 -> is_value fp tt d vs (SInt f) (VInt (v_prim d (fsize f) f))
  | iv_float32 : is_value fp tt d vs SFloat32 (VFloat (fp32 fp (v_prim d 4 FI)))
  | iv_float64 : is_value fp tt d vs SFloat64 (VFloat (fp64 fp (v_prim d 8 FQ)))
  | iv_enum : forall r, is_value fp tt d vs (SEnum r) (VInt (v_prim d 2 FH))
  | iv_text : forall n b, v_ptr vs 0 = VList 2 n b -> 1 <= n -> is_value fp tt d vs SText (VBytes (sub b 0 (n - 1)))
  | iv_text_null : v_ptr vs 0 = VNull -> is_value fp tt d vs SText VNone
  | iv_data : forall n b, v_ptr vs 0 = VList 2 n b -> is_value fp tt d vs SData (VBytes (sub b 0 n))
  | iv_data_null : v_ptr vs 0 = VNull -> is_value fp tt d vs SData VNone
  | iv_struct : forall r sd svs o, v_ptr vs 0 = VStruct sd svs -> obj_den o sd svs ->
      is_value fp tt d vs (SStruct r) (VObj (CUser r) o)
  | iv_list : forall t j l, item_of tt t = Some j -> v_ptr vs 0 <> VNull -> lobj_den l (v_ptr vs 0) -> l_it l = model_item j ->
      is_value fp tt d vs (SList t) (VListO l j).

  (** The Value fits the type: it has its discriminant; text is terminated;
      floats are finite (their repr is a literal, perhaps with a sign);
      structs and lists are there *)
  Definition finite_text (s : str) : Prop :=
    reads s (EFloat s) \/ exists t, s = 45 :: t /\ reads s (ENeg (EFloat t)).
  Definition carries (fp : floats) (d : bytes) (vs : list value) (t : sty) : Prop :=
    v_prim d 0 Fh = value_tag t /\
    match t with
    | SFloat32 => finite_text (fp32 fp (v_prim d 4 FI))
    | SFloat64 => finite_text (fp64 fp (v_prim d 8 FQ))
    | SText => v_ptr vs 0 = VNull \/ exists n b, v_ptr vs 0 = VList 2 n b /\ 1 <= n
    | SData => v_ptr vs 0 = VNull \/ exists n b, v_ptr vs 0 = VList 2 n b
    | SStruct _ => exists sd svs, v_ptr vs 0 = VStruct sd svs
    | SList _ => match v_ptr vs 0 with VNull | VStruct _ _ => False | _ => True end
    | SInterface | SAny => False
    | _ => True
    end.

  (** The class of a struct can be named *)
  Definition class_visible (locals globals : list (str * pyv)) (r : cref) : Prop :=
    match cr_file r with
    | None => cr_path r <> [] /\ Forall (fun n => ident n = true) (cr_path r) /\
              name locals globals (pname (cr_path r)) = Ok (VCls (CUser r))
    | Some m => cr_path r <> [] /\ exists ns, assoc m I = Some ns /\ declared true ns (cr_path r)
    end.
  (** The reflection data is that of the message the Value is in *)
  Definition reflection_visible (locals globals : list (str * pyv)) (s : seg) : Prop :=
    exists request dopts, name locals globals (lit "_reflection_data") = Ok (VRefl request dopts) /\ o_seg request = s.
End interp.

(** ** A whole file *)

Definition tname (t : tnode) : str :=
  match t with TStruct n _ _ | TEnum n | TConst n _ | TAnn n | TOther n => n end.
(** all the declarations of a file, with their paths *)
Fixpoint flat (p : list str) (t : tnode) : list (list str * tnode) :=
  (p ++ [tname t], t) :: match t with TStruct n _ kids => flat_map (flat (p ++ [n])) kids | _ => [] end.
Definition flats (nodes : list tnode) : list (list str * tnode) := flat_map (flat []) nodes.
(** the structs in the order in which their classes are completed: a struct
    comes after what is nested in it *)
Fixpoint posts (p : list str) (t : tnode) : list (list str) :=
  match t with TStruct n _ kids => flat_map (posts (p ++ [n])) kids ++ [p ++ [n]] | _ => [] end.
Definition order (nodes : list tnode) : list (list str) := flat_map (posts []) nodes.

Definition plain_name (n : str) : Prop := ident n = true /\ ~ In underscore n /\ ~ In n kwlist3.

(** What capnp guarantees, the names that are keywords apart; no interfaces,
    and annotations on top *)
Record file_ok (nodes : list tnode) : Prop := {
  fo_names : forall q t, In (q, t) (flats nodes) -> Forall plain_name q;
  fo_distinct : NoDup (map fst (flats nodes));
  fo_kinds : forall q t, In (q, t) (flats nodes) ->
    match t with TAnn _ => length q = 1%nat | TOther _ => False | _ => True end }.

Definition on (o : opts) : Prop := include_reflection_data o <> bool_notset /\ include_reflection_data o <> 0.
Definition off (o : opts) : Prop := include_reflection_data o = 0.

(** what compact() needs to be exact (see C19) *)
Definition compact_fits (fuel : nat) (raw : bytes) (o : obj) (v : value) : Prop :=
  blen raw <= 2 ^ 32 /\ reach_obj raw o /\ limv v /\ 8 + blen (content v) <= 2 ^ 32 /\ (2 * vdepth v <= fuel)%nat.

Section file.
  Variables (fuel : nat) (fp : floats) (I : imports) (raw : bytes) (file_opts : opts) (nodes : list tnode).

  (** the struct or enum [r] is declared in the file or in an imported one *)
  Definition is_declared (st : bool) (r : cref) : Prop :=
    match cr_file r with
    | None => exists t, In (cr_path r, t) (flats nodes) /\
                match t with TStruct _ _ _ => st = true | TEnum _ => st = false | _ => False end
    | Some m => cr_path r <> [] /\ exists ns, assoc m I = Some ns /\ declared st ns (cr_path r)
    end.
  (** the item type of [r] exists when the constants of the struct at [p]
      ([]: of the file) are computed *)
  Definition item_ready (p : list str) (st : bool) (r : cref) : Prop :=
    is_declared st r /\
    match cr_file r with
    | None => st = true -> p = [] \/ exists l1 l2, order nodes = l1 ++ p :: l2 /\ In (cr_path r) l1
    | Some _ => length (cr_path r) = 1%nat
    end.
  Fixpoint items_ready (p : list str) (t : sty) : Prop :=
    match t with
    | SList t => items_ready p t
    | SStruct r => item_ready p true r
    | SEnum r => item_ready p false r
    | _ => True
    end.

  (** The constant [c] of the struct at [p], after the declarations [before]
      of that struct. Its Value is somewhere in the compiler's request. *)
  Definition const_ok (p : list str) (before : list str) (c : cconst) : Prop :=
    reach_obj raw (cc_value c) /\
    exists d vs, obj_den (cc_value c) d vs /\ carries fp d vs (cc_type c) /\
    match cc_type c with
    | SStruct r =>
        is_declared true r /\
        (cr_file r = None -> forall x, cr_path r = [x] -> ~ In x before) /\
        (on (cc_opts c) /\ on file_opts \/ off (cc_opts c) /\ compact_fits fuel raw (cc_value c) (v_ptr vs 0))
    | SList t =>
        on (cc_opts c) /\ on file_opts /\ items_ready p t /\ item_of (text_type (cc_opts c)) t <> None
    | _ => True
    end.

  (** the names that declarations bind in the class of the struct *)
  Definition bound_names (l : list tnode) : list str :=
    flat_map (fun t => match t with TStruct n false _ | TEnum n | TConst n _ => [n] | _ => [] end) l.
  Definition consts_ok : Prop :=
    (forall n c, In (TConst n c) nodes -> const_ok [] [] c) /\
    (forall p m g kids k1 n c k2, In (p, TStruct m g kids) (flats nodes) -> kids = k1 ++ TConst n c :: k2 ->
       const_ok p (bound_names k1) c).
End file.
