(** Model of what the text of the generated methods uses: the objects of
    capnpy and their methods, as a [runtime] for PyRun.v. Every method is the
    function of the model that stands for it. Pure-Python mode. Uses of the
    methods which the generated code does not make are [MemFault] (not a
    Python exception). Inside of a class Python writes _Cls__new for __new,
    everywhere; here the name is left as it is. *)
From Verif Require FloatBits.
From Verif Require Import Base Spec Ptr Segment Builder Copy Endof Struct List CopyList Case Loader Ctor PySyntax PyRun.
From Coq Require Import String.
From Coq Require Import Lists.List.
Local Notation length := Datatypes.length.
Local Open Scope string_scope.
Local Open Scope list_scope.
Local Open Scope Z_scope.

(** values: those that can be given to constructors; strings; AnyPointer
    objects; segments; item types; classes; instances of a class of the
    module; the instance which is being made (its attributes are in the
    state); functions and modules by name; methods of an object *)
Inductive xv :=
| XV (v : pyval) | XStr (s : str) | XAny (o : obj) (off : Z) | XSeg (s : seg) | XItem (t : itype)
| XCls (c : str) | XObj (c : str) (o : obj) | XNew (c : str)
| XFun (n : str) | XMeth (r : xv) (n : str).

(** the buffer of the builder, the attributes of the new instance *)
Record st := mkst { s_buf : bytes; s_new : option obj }.

(** What surrounds a method: the statements in the body of each class, the
    value of __tag_offset__ divided by 2, the global names of the module that
    come from the schema, the classes inside of a class, the value of a float
    literal; the fuel of the copying functions *)
Record world := mkworld {
  w_fuel : nat;
  w_body : str -> list pstmt;
  w_utag : str -> option Z;
  w_global : str -> option xv;
  w_inner : str -> str -> option xv;
  w_float : str -> Z }.

Definition outside {A} : res A := Err MemFault.

(** struct format characters (type.py:33-46) *)
Definition fmt_of (z : Z) : option wfmt :=
  if z =? 98 then Some (WInt Fb) else if z =? 66 then Some (WInt FB)
  else if z =? 104 then Some (WInt Fh) else if z =? 72 then Some (WInt FH)
  else if z =? 105 then Some (WInt Fi) else if z =? 73 then Some (WInt FI)
  else if z =? 113 then Some (WInt Fq) else if z =? 81 then Some (WInt FQ)
  else if z =? 102 then Some WF32 else if z =? 100 then Some WF64 else None.
(** builder.py:25-53: the names of the methods *)
Definition writers : list (str * wfmt) :=
  [(lit "write_int8", WInt Fb); (lit "write_uint8", WInt FB); (lit "write_int16", WInt Fh); (lit "write_uint16", WInt FH);
   (lit "write_int32", WInt Fi); (lit "write_uint32", WInt FI); (lit "write_int64", WInt Fq); (lit "write_uint64", WInt FQ);
   (lit "write_float32", WF32); (lit "write_float64", WF64)].
Definition writer (n : str) : option wfmt :=
  match find (fun p => str_eqb (fst p) n) writers with Some p => Some (snd p) | None => None end.
Definition is (n : str) (s : string) : bool := str_eqb n (lit s).
Definition among (n : str) (l : list string) : bool := existsb (is n) l.

(** an offset into the buffer *)
Definition as_pos (v : pyval) : res Z :=
  match v with PInt z => Ok z | PBool b => Ok (Z.b2z b) | _ => Err TypeError end.

(** segment/builder.py *)
Definition builder_methods : list string :=
  ["write_bool"; "alloc_text"; "alloc_data"; "copy_from_struct"; "copy_from_list"; "allocate"; "as_string"].
Definition has_builder_method (n : str) : bool :=
  match writer n with Some _ => true | None => among n builder_methods end.
Definition call_builder (w : world) (n : str) (args : list xv) (s : st) : res (xv * st) :=
  let put r := do buf <- r; Ok (XV PNone, mkst buf (s_new s)) in
  match writer n with
  | Some f => match args with [XV i; XV x] => do i <- as_pos i; put (write_scalar f (s_buf s) i x) | _ => outside end
  | None =>
      match args with
      | [] => if is n "as_string" then Ok (XV (PBytes (s_buf s)), s) else outside
      | [XV (PInt z)] =>
          if is n "allocate" then let (buf, pos) := allocate (s_buf s) z in Ok (XV (PInt pos), mkst buf (s_new s)) else outside
      | [XV i; XV x] =>
          do i <- as_pos i;
          do b <- as_bytes x;
          if is n "alloc_text" then put (do (buf, _) <- alloc_text (s_buf s) i b; Ok buf)
          else if is n "alloc_data" then put (do (buf, _) <- alloc_data (s_buf s) i b; Ok buf)
          else outside
      | [XV (PInt a); XV (PInt b); XV x] =>
          if is n "write_bool" then do z <- as_shift x; put (write_bool (s_buf s) a b z) else outside
      | [XV i; XCls _; XV x] =>
          (* that the class of x is the right one is not modelled *)
          if is n "copy_from_struct" then do i <- as_pos i; put (copy_struct_arg (w_fuel w) (s_buf s) i x) else outside
      | [XV i; XItem t; XV x] =>
          if is n "copy_from_list" then do i <- as_pos i; put (copy_from_list (w_fuel w) t (s_buf s) i x) else outside
      | _ => outside
      end
  end.

(** struct_.py:180-281: the methods of an instance; a number beyond the data
    section is an int 0 for floats too *)
Definition struct_methods : list string :=
  ["_read_primitive"; "_read_bit"; "_read_int16"; "_read_text_bytes"; "_read_data"; "_read_fast_ptr"; "_read_far_ptr";
   "_read_list"; "_ensure_union"].
Definition opt_bytes (b : option bytes) : xv := match b with None => XV PNone | Some b => XV (PBytes b) end.
(** the keyword argument default_ *)
Definition default_kw (kws : list (str * xv)) : res (option bytes) :=
  match kws with
  | [] => Ok None
  | [(k, XV (PBytes b))] => if is k "default_" then Ok (Some b) else Err TypeError
  | _ => outside
  end.
Definition call_struct (w : world) (c : str) (o : obj) (n : str) (args : list xv) (kws : list (str * xv)) : res xv :=
  match args with
  | [XV (PInt off); XV (PInt z)] =>
      if is n "_read_primitive" then
        match fmt_of z with
        | Some (WInt f) => do v <- o_read_primitive o off f; Ok (XV (PInt v))
        | Some WF32 => do v <- o_read_primitive o off FI; Ok (XV (PFloat (FloatBits.to64 v)))
        | Some WF64 => do v <- o_read_primitive o off FQ; Ok (XV (PFloat v))
        | None => outside
        end
      else if is n "_read_bit" then do b <- o_read_bit o off z; Ok (XV (PBool b))
      else outside
  | [XV (PInt off)] =>
      if is n "_read_int16" then do v <- o_read_primitive o off Fh; Ok (XV (PInt v))
      else if is n "_read_text_bytes" then do d <- default_kw kws; do b <- o_read_data o off d (-1); Ok (opt_bytes b)
      else if is n "_read_data" then do d <- default_kw kws; do b <- o_read_data o off d 0; Ok (opt_bytes b)
      else if is n "_read_fast_ptr" then do p <- o_read_fast_ptr o off; Ok (XV (PInt p))
      else if is n "_read_far_ptr" then do (q, p) <- o_read_far_ptr o off; Ok (XV (PSeq [PInt q; PInt p]))
      else if is n "_ensure_union" then
        match w_utag w c with
        | Some u => do _ <- o_ensure_union o (u * 2) off; Ok (XV PNone)
        | None => Err TypeError
        end
      else outside
  | [XV (PInt off); XItem t] =>
      if is n "_read_list" then
        do l <- o_read_list o off t;
        Ok (match l with None => XV PNone | Some l => XV (PList l) end)
      else outside
  | _ => outside
  end.
(** the attributes of an instance *)
Definition struct_attr (o : obj) (n : str) : option xv :=
  if is n "_seg" then Some (XSeg (o_seg o))
  else if is n "_data_offset" then Some (XV (PInt (o_off o)))
  else if is n "_ptrs_offset" then Some (XV (PInt (o_ptrs o)))
  else if is n "_data_size" then Some (XV (PInt (o_ds o)))
  else if is n "_ptrs_size" then Some (XV (PInt (o_ps o)))
  else None.

(** blob.py:41-45: bytes are wrapped into a Segment *)
Definition as_seg (x : xv) : res seg :=
  match x with
  | XV (PBytes b) => Ok {| sbuf := b; soffs := None |}
  | XSeg s => Ok s
  | _ => outside
  end.
(** struct_.py:53-67 *)
Definition call_new (n : str) (args : list xv) (s : st) : res (xv * st) :=
  match args with
  | [b; XV (PInt off); XV (PInt x); XV (PInt y)] =>
      if is n "_init_from_buffer" then
        do sg <- as_seg b; do o <- init_from_buffer sg off x y; Ok (XV PNone, mkst (s_buf s) (Some o))
      else outside
  | [b; XV (PInt off); XV (PInt p)] =>
      if is n "_init_from_pointer" then
        do sg <- as_seg b; do o <- init_from_pointer sg off p; Ok (XV PNone, mkst (s_buf s) (Some o))
      else outside
  | _ => outside
  end.
(** struct_.py:44-51 (from_buffer) *)
Definition call_from_buffer (c : str) (args : list xv) (kws : list (str * xv)) : res xv :=
  match args, kws with
  | [b; XV (PInt off); XV (PInt x); XV (PInt y)], [] =>
      do sg <- as_seg b; do o <- init_from_buffer sg off x y; Ok (XObj c o)
  | [b; XV (PInt off)], [(k1, XV (PInt x)); (k2, XV (PInt y))] =>
      if is k1 "data_size" && is k2 "ptrs_size" then
        do sg <- as_seg b; do o <- init_from_buffer sg off x y; Ok (XObj c o)
      else outside
  | _, _ => outside
  end.

(** functions: builtins; struct_.py:19-23 (check_tag); ptr.py:kind; AnyPointer;
    list.py:14-33 *)
Definition functions : list string :=
  ["ord"; "_check_tag"; "_SegmentBuilder"; "_AnyPointer"; "NotImplementedError"; "_ptr"; "_Struct"; "_List";
   "_Types"; "_PrimitiveItemType"; "_BoolItemType"; "_VoidItemType"; "_TextItemType"; "_ListItemType"].
(** type.py:48-66: the types, which are attributes of Types; list.py:181-388 *)
Definition prim_types : list (str * itype) :=
  [(lit "int8", ITPrim Fb); (lit "uint8", ITPrim FB); (lit "int16", ITPrim Fh); (lit "uint16", ITPrim FH);
   (lit "int32", ITPrim Fi); (lit "uint32", ITPrim FI); (lit "int64", ITPrim Fq); (lit "uint64", ITPrim FQ);
   (lit "float32", ITFloat false); (lit "float64", ITFloat true)].
Definition text_types : list (str * itype) := [(lit "text", ITText (-1)); (lit "data", ITText 0)].
Definition item_of (l : list (str * itype)) (args : list xv) : res xv :=
  match args with
  | [XMeth (XFun f) n] =>
      if is f "_Types" then
        match find (fun p => str_eqb (fst p) n) l with Some p => Ok (XItem (snd p)) | None => outside end
      else outside
  | _ => outside
  end.
Definition call_fun (n : str) (args : list xv) (s : st) : res (xv * st) :=
  if is n "ord" then match args with [XV (PBytes [b])] => Ok (XV (PInt (bZ b)), s) | _ => outside end
  else if is n "_check_tag" then
    match args with [XV PNone; XStr _] => Ok (XV POther, s) | [XV _; XStr _] => Err TypeError | _ => outside end
  else if is n "_SegmentBuilder" then match args with [] => Ok (XV PBuilder, mkst [] (s_new s)) | _ => outside end
  else if is n "_AnyPointer" then match args with [XObj _ o; XV (PInt off)] => Ok (XAny o off, s) | _ => outside end
  else if is n "NotImplementedError" then match args with [XStr _] => Ok (XFun n, s) | _ => outside end
  else if is n "_PrimitiveItemType" then do x <- item_of prim_types args; Ok (x, s)
  else if is n "_TextItemType" then do x <- item_of text_types args; Ok (x, s)
  else if is n "_BoolItemType" then match args with [] => Ok (XItem ITBool, s) | _ => outside end
  else if is n "_VoidItemType" then match args with [] => Ok (XItem ITVoid, s) | _ => outside end
  else if is n "_ListItemType" then match args with [XItem t] => Ok (XItem (ITList t), s) | _ => outside end
  else outside.
Definition fun_attr (f n : str) : option xv :=
  if is f "_ptr" then
    if is n "kind" then Some (XMeth (XFun f) n) else if is n "FAR" then Some (XV (PInt FAR)) else None
  else if is f "_Struct" then if is n "_init_from_buffer" then Some (XMeth (XFun f) n) else None
  else if is f "_List" then if is n "from_buffer" then Some (XMeth (XFun f) n) else None
  else if is f "_Types" then Some (XMeth (XFun f) n)
  else None.
Definition call_fun_meth (f n : str) (args : list xv) (s : st) : res (xv * st) :=
  if is f "_ptr" then
    match args with [XV (PInt p)] => if is n "kind" then Ok (XV (PInt (kind p)), s) else outside | _ => outside end
  else if is f "_Struct" then
    match args with XNew _ :: args => call_new n args s | _ => outside end
  else if is f "_List" then
    match args with
    | [b; XV (PInt off); XV (PInt tag); XV (PInt cnt); XItem t] =>
        do sg <- as_seg b; do l <- list_init sg off tag cnt t; Ok (XV (PList l), s)
    | _ => outside
    end
  else outside.

(** Python's operators on ints, bools and floats; sums of other things do not
    occur *)
Definition x_bin (o : binop) (a b : xv) : res xv :=
  match a, b with
  | XV x, XV y =>
      match o with
      | BXor => do v <- py_xor x y; Ok (XV v)
      | BAdd => do i <- as_pos x; do j <- as_pos y; Ok (XV (PInt (i + j)))
      | BMod => outside
      end
  | _, _ => Err TypeError
  end.
Definition x_eq (a b : xv) : res bool :=
  match a, b with
  | XV (PInt x), XV (PInt y) => Ok (x =? y)
  | XV (PBool x), XV (PInt y) => Ok (Z.b2z x =? y)
  | XV (PFloat x), XV (PInt 0) => Ok (float_zero 63 x)
  | _, _ => outside
  end.
(** [is] with None or _undefined on the right *)
Definition x_is (a b : xv) : res bool :=
  match b with
  | XV PNone => Ok (match a with XV PNone => true | _ => false end)
  | XV PUndef => Ok (match a with XV PUndef => true | _ => false end)
  | _ => outside
  end.
Definition x_cmp (o : cmpop) (a b : xv) : res bool :=
  match o with
  | CEq => x_eq a b
  | CNe => do c <- x_eq a b; Ok (negb c)
  | CIs => x_is a b
  | CIsNot => do c <- x_is a b; Ok (negb c)
  end.
Definition x_truth (a : xv) : res bool :=
  match a with
  | XV PNone => Ok false
  | XV (PBool b) => Ok b
  | XV (PInt z) => Ok (negb (z =? 0))
  | XV (PFloat b) => Ok (negb (float_zero 63 b))
  | XV (PBytes b) => Ok (match b with [] => false | _ => true end)
  | XV (PList l) => Ok (negb (l_count l =? 0))
  | XObj _ _ | XNew _ | XAny _ _ => Ok true
  | _ => outside
  end.
Definition x_neg (a : xv) : res xv :=
  match a with
  | XV (PInt z) => Ok (XV (PInt (- z)))
  | XV (PFloat b) => Ok (XV (PFloat (Z.lxor b (2 ^ 63))))
  | _ => outside
  end.
(** tuples of values that can be given to constructors *)
Fixpoint x_tuple (l : list xv) : res (list pyval) :=
  match l with
  | [] => Ok []
  | XV v :: r => do vs <- x_tuple r; Ok (v :: vs)
  | _ => outside
  end.
Definition x_iter (a : xv) : res (list xv) :=
  match a with
  | XV v => do l <- py_iter v; Ok (map XV l)
  | _ => outside
  end.

(** the last definition of a name in the body of a class *)
Definition last_def (l : list pstmt) (n : str) : option (option str * list (str * option pexp) * list pstmt) :=
  fold_left (fun a q => match q with qDef d f ps b => if str_eqb f n then Some (d, ps, b) else a | _ => a end) l None.

(** [depth]: how deep methods may call methods of generated classes *)
Fixpoint rt (w : world) (depth : nat) : runtime xv st :=
  let call ps b args kws s := match depth with O => outside | S d => call_def (rt w d) ps b args kws s end in
  let obj_attr c o v n s :=
    match last_def (w_body w c) n with
    | Some (Some d, ps, b) => if is d "property" then call ps b [v] [] s else outside
    | Some (None, _, _) => Ok (XMeth v n, s)
    | None =>
        match struct_attr o n with
        | Some x => Ok (x, s)
        | None => if among n struct_methods then Ok (XMeth v n, s) else Err AttributeError
        end
    end in
  {| r_int z := XV (PInt z);
     r_float t := XV (PFloat (w_float w t));
     r_str t := XStr t;
     r_bytes b := XV (PBytes b);
     r_const c := match c with CNone => XV PNone | CTrue => XV (PBool true) | CFalse => XV (PBool false) end;
     r_bool b := XV (PBool b);
     r_tuple l := do vs <- x_tuple l; Ok (XV (PSeq vs));
     r_nil _ := outside;
     r_neg := x_neg;
     r_bin := x_bin;
     r_cmp := x_cmp;
     r_truth := x_truth;
     r_iter := x_iter;
     r_global n :=
       if among n functions then Ok (XFun n)
       else if is n "_undefined" then Ok (XV PUndef)
       else match w_global w n with Some v => Ok v | None => Err NameError end;
     r_attr v n s :=
       match v with
       | XV PBuilder => if has_builder_method n then Ok (XMeth v n, s) else Err AttributeError
       | XObj c o => obj_attr c o v n s
       | XNew c =>
           if among n ["_init_from_buffer"; "_init_from_pointer"] then Ok (XMeth v n, s)
           else match s_new s with Some o => obj_attr c o (XObj c o) n s | None => outside end
       | XCls c =>
           match last_def (w_body w c) n with
           | Some (Some d, _, _) => if among d ["staticmethod"; "classmethod"] then Ok (XMeth v n, s) else outside
           | Some (None, _, _) => outside
           | None =>
               if among n ["__new__"; "from_buffer"; "_new"] then Ok (XMeth v n, s)
               else match w_inner w c n with Some x => Ok (x, s) | None => Err AttributeError end
           end
       | XFun f => match fun_attr f n with Some x => Ok (x, s) | None => Err AttributeError end
       | XV _ | XMeth _ _ => Err AttributeError
       | _ => outside
       end;
     r_call v args kws s :=
       match v with
       | XMeth (XV PBuilder) n => match kws with [] => call_builder w n args s | _ => outside end
       | XMeth (XObj c o) n =>
           match last_def (w_body w c) n with
           | Some (_, ps, b) => call ps b (XObj c o :: args) kws s
           | None => do x <- call_struct w c o n args kws; Ok (x, s)
           end
       | XMeth (XNew c) n => match kws with [] => call_new n args s | _ => outside end
       | XMeth (XCls c) n =>
           match last_def (w_body w c) n with
           | Some (Some d, ps, b) => call ps b (if is d "classmethod" then XCls c :: args else args) kws s
           | Some (None, _, _) => outside
           | None =>
               if is n "__new__" then match args, kws with [XCls c'], [] => Ok (XNew c', s) | _, _ => outside end
               else if is n "from_buffer" then do x <- call_from_buffer c args kws; Ok (x, s)
               else (* enum.py: an enum is an int *)
                 match args, kws with [XV (PInt z)], [] => if is n "_new" then Ok (XV (PInt z), s) else outside | _, _ => outside end
           end
       | XMeth (XFun f) n => match kws with [] => call_fun_meth f n args s | _ => outside end
       | XCls c =>
           (* a new instance *)
           match last_def (w_body w c) (lit "__init__") with
           | Some (_, ps, b) => do (_, s) <- call ps b (XNew c :: args) kws (mkst (s_buf s) None); Ok (XNew c, s)
           | None => outside
           end
       | XFun n => match kws with [] => call_fun n args s | _ => outside end
       | _ => Err TypeError
       end;
     r_raise v := match v with XFun n => if is n "NotImplementedError" then NotImplementedError else TypeError | _ => TypeError end |}.
