(** Model of the constants and of the reflection data of a generated module:
    compiler/node.py:81-101, 140-190, compiler/module.py:194-218,
    compiler/misc.py, compiler/request.py:95-165, compiler/struct_.py:25-100,
    compiler/enum.py:14-25. What is generated is text; [mstmt] is the
    skeleton of statements around it. Python mode, except where [pyx] is a
    parameter. *)
From Coq Require Import Strings.String.
From Verif Require Import Base Spec Ptr Segment Builder Struct List Case Enum CopyList Ctor Options Loader Names Repr.
From Coq Require Import Lists.List.
Local Notation length := Datatypes.length.

(** ** Types *)

(** A struct or an enum: the variable of the import it comes from (None: it
    is of this file), and its names from the top of the file down *)
Record cref := mkcref { cr_file : option str; cr_path : list str }.

(** schema.Type *)
Inductive sty :=
| SVoid | SBool | SInt (f : ifmt) | SFloat32 | SFloat64 | SText | SData
| SList (t : sty) | SEnum (r : cref) | SStruct (r : cref) | SInterface | SAny.

(** str(self.which()) *)
Definition int_name (f : ifmt) : str :=
  match f with
  | Fb => lit "int8" | FB => lit "uint8" | Fh => lit "int16" | FH => lit "uint16"
  | Fi => lit "int32" | FI => lit "uint32" | Fq => lit "int64" | FQ => lit "uint64"
  end.
Definition which_name (t : sty) : str :=
  match t with
  | SVoid => lit "void" | SBool => lit "bool" | SInt f => int_name f
  | SFloat32 => lit "float32" | SFloat64 => lit "float64" | SText => lit "text" | SData => lit "data"
  | SList _ => lit "list" | SEnum _ => lit "enum" | SStruct _ => lit "struct"
  | SInterface => lit "interface" | SAny => lit "anyPointer"
  end.

(** schema_extended.py:17-23 (is_builtin: a range of tags) *)
Definition is_builtin (t : sty) : bool :=
  match t with SVoid | SBool | SInt _ | SFloat32 | SFloat64 | SText | SData => true | _ => false end.

(** node.py:75-92: _fullname, compile_name. The parents of a node end in the
    file node, whose short name is the variable of the import. *)
Fixpoint sep_join (sep : str) (p : list str) : str :=
  match p with
  | [] => []
  | [x] => x
  | x :: r => x ++ sep ++ sep_join sep r
  end.
Definition cname (r : cref) (prefix : str) : str :=
  match cr_file r with
  | Some v => sep_join (lit "." ++ prefix) (v :: cr_path r)
  | None => prefix ++ sep_join (lit "_") (cr_path r)
  end.
(** node.py:65-71 *)
Definition is_imported (r : cref) : bool := match cr_file r with Some _ => true | None => false end.

(** TextType (annotate.capnp:23-27) *)
Definition tt_bytes : Z := 1.
Definition tt_unicode : Z := 2.
Definition text_type_name (z : Z) : str :=
  if z =? 0 then lit "notset" else if z =? 1 then lit "bytes" else if z =? 2 then lit "unicode"
  else lit "unknown<" ++ dec z ++ lit ">".

(** misc.py:25-31 *)
Definition prebuilt_compile_name (text_type : Z) (t : sty) : str :=
  match t with
  | SText => lit "_text_" ++ text_type_name text_type
  | _ => lit "_" ++ which_name t
  end.

(** misc.py:33-82 (list_item_type) *)
Fixpoint list_item_type (pyx : bool) (text_type : Z) (t : sty) : res str :=
  let prebuilt :=
    if pyx then
      if is_builtin t then Some (prebuilt_compile_name text_type t)
      else match t with
           | SStruct r | SEnum r => if is_imported r then None else Some (cname r (lit "_"))
           | _ => None
           end
    else match t with
         | SStruct r | SEnum r => Some (cname r (lit "_"))
         | _ => None
         end in
  match prebuilt with
  | Some name => Ok (name ++ lit "_list_item_type")
  | None =>
      match t with
      | SList t' => do inner <- list_item_type pyx text_type t'; Ok (lit "_ListItemType(" ++ inner ++ lit ")")
      | SInt _ | SFloat32 | SFloat64 => Ok (lit "_PrimitiveItemType(_Types." ++ which_name t ++ lit ")")
      | SBool => Ok (lit "_BoolItemType()")
      | SText =>
          if text_type =? tt_bytes then Ok (lit "_TextItemType(_Types.text)")
          else if text_type =? tt_unicode then Ok (lit "_TextUnicodeItemType(_Types.text)")
          else Err NotImplementedError
      | SData => Ok (lit "_TextItemType(_Types.data)")
      | SVoid => Ok (lit "_VoidItemType()")
      | SStruct r => Ok (lit "_StructItemType(" ++ cname r [] ++ lit ")")
      | SEnum r => Ok (lit "_EnumItemType(" ++ cname r [] ++ lit ")")
      | SInterface | SAny => Err NotImplementedError
      end
  end.

(** ** Values *)

(** The fields of schema.Value (schema.py:2406-2569), by discriminant *)
Definition val_fields : list field :=
  let f d t off := FSlot EmptyString 0 (Some d) t off false 0 in
  [f 0 TVoid 0; f 1 TBool 16; f 2 (TPrim Fb) 2; f 3 (TPrim Fh) 1; f 4 (TPrim Fi) 1; f 5 (TPrim Fq) 1;
   f 6 (TPrim FB) 2; f 7 (TPrim FH) 1; f 8 (TPrim FI) 1; f 9 (TPrim FQ) 1; f 10 TFloat32 1; f 11 TFloat64 1;
   f 12 TText 0; f 13 TData 0; f 14 TAny 0; f 15 (TPrim FH) 1; f 16 TAny 0; f 17 TVoid 0; f 18 TAny 0].

(** misc.py:84-86 (as_pyobj): the name of the tag, then the property of that
    name; the name of an unknown tag is not an attribute *)
Definition as_pyobj (v : obj) : res gval :=
  do w <- which v (Some 0);
  match tuple_get val_fields w with
  | Ok f => get_slot v (Some 0) f
  | Err _ => Err AttributeError
  end.

(** Value.struct, Value.list, an AnyPointer or None *)
Definition value_field (v : obj) (tag : nat) : res gval :=
  match nth_error val_fields tag with Some f => get_slot v (Some 0) f | None => Err AttributeError end.

(** repr() of such an object. [fp]: repr() of a float from its bits; the
    repr of an AnyPointer is the default one of object *)
Definition py_repr (fp : floats) (g : gval) : str :=
  match g with
  | GNone => lit "None"
  | GBool b => if b then lit "True" else lit "False"
  | GInt z => dec z
  | GF32 b => fp32 fp b
  | GF64 b => fp64 fp b
  | GBytes b => lit "b" ++ bytes_repr b
  | _ => lit "<object>"
  end.

(** repr() of a tuple of ints *)
Definition tuple_repr (l : list Z) : str :=
  [40] ++ join_with comma (map dec l) ++ (match l with [_] => [44] | _ => [] end) ++ [41].

(** module.py:194-218 (declare_const) *)
Definition declare_const (clsname : str) (s : obj) (segment : option str) : str :=
  let segment :=
    match segment with
    | Some x => x
    | None =>
        match soffs (o_seg s) with
        | Some offsets => lit "_MultiSegment(b" ++ bytes_repr (sbuf (o_seg s)) ++ lit ", " ++ tuple_repr offsets ++ lit ")"
        | None => lit "_Segment(b" ++ bytes_repr (sbuf (o_seg s)) ++ lit ")"
        end
    end in
  clsname ++ lit ".from_buffer(" ++ segment ++ lit ", " ++ dec (o_off s) ++ lit ", " ++ dec (o_ds s)
    ++ lit ", " ++ dec (o_ps s) ++ lit ")".

(** annotate_extended.py:39-43 (BoolOption.__bool__) *)
Definition opt_bool (z : Z) : res bool := if z =? bool_notset then Err ValueError else Ok (negb (z =? 0)).

(** A const node: its type, its Value, its options *)
Record cconst := mkcconst { cc_type : sty; cc_value : obj; cc_opts : opts }.

Definition refl_seg : str := lit "_reflection_data.request._seg".

(** node.py:145-190 (Node__Const.emit_reference_as_child): the right-hand
    side. [n]: depth of the copies made by compact(). None.as_struct is an
    AttributeError. *)
Definition emit_const (n : nat) (fp : floats) (pyx : bool) (c : cconst) : res str :=
  match cc_type c with
  | SStruct r =>
      do a <- value_field (cc_value c) 16;
      match a with
      | GAny off =>
          do s <- o_read_struct (cc_value c) off;
          do refl <- opt_bool (include_reflection_data (cc_opts c));
          match s with
          | None => Err AttributeError
          | Some s =>
              if refl then Ok (declare_const (cname r []) s (Some refl_seg))
              else do s <- o_compact n s; Ok (declare_const (cname r []) s None)
          end
      | _ => Err AttributeError
      end
  | SList t =>
      do refl <- opt_bool (include_reflection_data (cc_opts c));
      if negb refl then Err NotImplementedError
      else
        do a <- value_field (cc_value c) 14;
        match a with
        | GAny off =>
            do l <- o_read_list (cc_value c) off ITVoid;
            do item_type <- list_item_type pyx (text_type (cc_opts c)) t;
            match l with
            | None => Err AttributeError
            | Some l =>
                Ok (lit "_List.from_buffer(" ++ refl_seg ++ lit ", " ++ dec (l_off l) ++ lit ", " ++ dec (l_stag l)
                      ++ lit ", " ++ dec (l_count l) ++ lit ", " ++ item_type ++ lit ")")
            end
        | _ => Err AttributeError
        end
  | _ => do g <- as_pyobj (cc_value c); Ok (py_repr fp g)
  end.

(** ** The statements of a module *)

(** The nodes of a file. [TOther]: an interface, which emit_declaration
    refuses (node.py:92-93). *)
Inductive tnode :=
| TStruct (name : str) (group : bool) (kids : list tnode)
| TEnum (name : str)
| TConst (name : str) (c : cconst)
| TAnn (name : str)
| TOther (name : str).

(** What the generated statements do, as far as constants are concerned: a
    class statement or the creation of an item type binds a global name;
    [MConst] is "name = text"; [MClass] is the body of a class, a list of
    "name = text" (other names of a class body: see Names.v). The enums of
    the unions (X__tag__) are left out. *)
Inductive bound := BStruct (r : cref) | BEnum (r : cref) | BItemStruct (r : cref) | BItemEnum (r : cref) | BAnn.
Inductive mstmt :=
| MBind (n : str) (b : bound)
| MConst (n : str) (text : str)
| MClass (path : list str) (body : list (str * str))
| MReflection (request default_options : str).

Definition here (p : list str) : cref := mkcref None p.
Definition pname (p : list str) : str := cname (here p) [].
Definition item_name (p : list str) : str := lit "_" ++ pname p ++ lit "_list_item_type".

(** emit_declaration: struct_.py:25-53, enum.py:14-20, node.py:106-137, 142-143 *)
Fixpoint decls (p : list str) (t : tnode) : res (list mstmt) :=
  match t with
  | TStruct n _ kids =>
      let p' := p ++ [n] in
      do l <- (fix go l := match l with
                           | [] => Ok []
                           | k :: r => do a <- decls p' k; do b <- go r; Ok (a ++ b)
                           end) kids;
      Ok (l ++ [MBind (pname p') (BStruct (here p'))])
  | TEnum n => let p' := p ++ [n] in
      Ok [MBind (pname p') (BEnum (here p')); MBind (item_name p') (BItemEnum (here p'))]
  | TConst _ _ => Ok []
  | TAnn n => Ok [MBind n BAnn]
  | TOther _ => Err AssertionError
  end.

Section gen.
  Variables (fuel : nat) (fp : floats) (pyx : bool).

  (** emit_reference_as_child in the body of a class: struct_.py:97-100,
      enum.py:22-25, node.py:145-179, 101-102 *)
  Definition child_ref (p : list str) (t : tnode) : res (list (str * str)) :=
    match t with
    | TStruct n group _ => Ok (if group then [] else [(n, pname (p ++ [n]))])
    | TEnum n => Ok [(n, pname (p ++ [n]))]
    | TConst n c => do text <- emit_const fuel fp pyx c; Ok [(n, text)]
    | TAnn _ | TOther _ => Ok []
    end.
  Fixpoint child_refs (p : list str) (l : list tnode) : res (list (str * str)) :=
    match l with
    | [] => Ok []
    | t :: r => do a <- child_ref p t; do b <- child_refs p r; Ok (a ++ b)
    end.

  (** emit_definition: struct_.py:55-95 (the nested nodes come first) *)
  Fixpoint defs (p : list str) (t : tnode) : res (list mstmt) :=
    match t with
    | TStruct n _ kids =>
        let p' := p ++ [n] in
        do l <- (fix go l := match l with
                             | [] => Ok []
                             | k :: r => do a <- defs p' k; do b <- go r; Ok (a ++ b)
                             end) kids;
        do body <- child_refs p' kids;
        Ok (l ++ [MClass p' body; MBind (item_name p') (BItemStruct (here p'))])
    | _ => Ok []
    end.

  (** emit_reference_as_child of the file's own nodes: only constants *)
  Definition top_ref (t : tnode) : res (list mstmt) :=
    match t with
    | TConst n c => do text <- emit_const fuel fp pyx c; Ok [MConst n text]
    | _ => Ok []
    end.

  Fixpoint all {A} (f : tnode -> res (list A)) (l : list tnode) : res (list A) :=
    match l with
    | [] => Ok []
    | t :: r => do a <- f t; do b <- all f r; Ok (a ++ b)
    end.

  (** request.py:107-128 and 149-165: [request] and [default_options] are the
      objects of the compiler, [file_opts] the options of the file *)
  Definition emit_file (request default_options : obj) (file_opts : opts) (nodes : list tnode) : res (list mstmt) :=
    do refl <- opt_bool (include_reflection_data file_opts);
    do d <- all (decls []) nodes;
    do f <- all (defs []) nodes;
    do c <- all top_ref nodes;
    Ok ((if refl
         then [MReflection (declare_const (lit "_CodeGeneratorRequest") request None)
                 (declare_const (lit "_Options") default_options None)]
         else []) ++ d ++ f ++ c).
End gen.
