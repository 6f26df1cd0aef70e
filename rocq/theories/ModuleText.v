(** Model of the text of a whole generated module, pure-Python mode:
    compiler/request.py:22-160, compiler/struct_.py:25-130, compiler/enum.py:14-25,
    compiler/module.py:166-186 (declare_enum), compiler/node.py:106-137
    (annotations). The text of the methods is that of ClassText.v, ReprText.v
    and KeyText.v. Simplified: a schema that imports no other schema and has no
    interfaces; reflection data in one segment. *)
From Verif Require Import Base List CopyList Case Loader Repr Ctor GenText ClassText ReprText KeyText.

From Coq Require Import String.
From Coq Require Import Lists.List.
Local Notation length := Datatypes.length.
Local Open Scope string_scope.
Local Open Scope list_scope.
Local Open Scope Z_scope.

(** {id:#x}, id >= 0; a number below 2^64 has at most 16 digits *)
Definition hex_char (d : Z) : Z := if d <? 10 then 48 + d else 87 + d.
Fixpoint hex_digits (n : nat) (z : Z) : str :=
  match n with
  | O => []
  | Datatypes.S n => if z <? 16 then [hex_char z] else hex_digits n (z / 16) ++ [hex_char (z mod 16)]
  end.
Definition hex_text (z : Z) : str := lit "0x" ++ hex_digits 16 z.
(** repr() of an identifier, of a dotted name, of a version *)
Definition quoted (n : str) : str := [39] ++ n ++ [39].

(** module.py:166-186 *)
Definition enum_text (name : str) (id : option Z) (items : list str) : list str :=
  [lit "class " ++ name ++ lit "(_BaseEnum):";
   ln 4 (lit "__capnpy_id__ = " ++ match id with Some z => dec z | None => lit "None" end);
   ln 4 (lit "__members__ = (" ++ args_text (map quoted items) ++ lit ",)");
   ln 4 (lit "@staticmethod");
   ln 4 (lit "def _new(x):");
   ln 8 (lit "return " ++ name ++ lit "(x)");
   lit "_fill_enum(" ++ name ++ lit ")"].

(** A struct or a group: its names (node.py:75-92: the last component,
    compile_name, runtime_name), its id, its fields as the accessors and
    constructors know them and as shortrepr() knows them, the fields that
    $Py.key names *)
Record struct_decl := mksd {
  sd_short : str; sd_name : str; sd_dotname : str; sd_id : Z;
  sd_group : bool; sd_sn : struct_node; sd_fields : list nfield; sd_key : option (list field) }.
Definition sd_items (s : struct_decl) : list str := match sn_utag (sd_sn s) with Some _ => union_items (sn_fields (sd_sn s)) | None => [] end.

Inductive mnode :=
| NStruct (s : struct_decl) (children : list mnode)
| NEnum (short name : str) (id : Z) (items : list str)
| NConst (name value : str)               (* the text of the value: Const.v *)
| NAnn (name : str) (id : Z) (targets : list bool).

Definition annotation_targets : list string :=
  ["file"; "const"; "enum"; "enumerant"; "struct"; "field"; "union"; "group"; "interface"; "method"; "param"; "annotation"].

Section text.
Variable fl : Z -> str.
Variable nm : str -> string -> string -> names.     (* the names in the text of a struct *)

(** ** Declarations *)
Definition tag_name (s : struct_decl) : str := sd_name s ++ lit "__tag__".
(** struct_.py:42-53, 111-117 *)
Definition struct_decl_text (s : struct_decl) : list str :=
  [lit "class " ++ sd_name s ++ lit "(_Struct): pass";
   sd_name s ++ lit ".__name__ = " ++ quoted (sd_dotname s)] ++
  match sd_items s with [] => [] | items => enum_text (tag_name s) None items end ++ [[]].
(** enum.py:14-20 *)
Definition enum_decl_text (name : str) (id : Z) (items : list str) : list str :=
  enum_text name (Some id) items ++ [lit "_" ++ name ++ lit "_list_item_type = _EnumItemType(" ++ name ++ lit ")"; []].
(** node.py:106-137 *)
Definition bool_text (b : bool) : str := if b then lit "True" else lit "False".
Definition ann_text (name : str) (id : Z) (targets : list bool) : list str :=
  [lit "class " ++ name ++ lit "(object):"; ln 4 (lit "__capnpy_id__ = " ++ hex_text id)] ++
  map (fun p => ln 4 (lit "targets_" ++ lit (fst p) ++ lit " = " ++ bool_text (snd p))) (combine annotation_targets targets).
(** struct_.py:25-28: children first *)
Fixpoint decl_text (n : mnode) : list str :=
  match n with
  | NStruct s ch => (fix go l := match l with [] => [] | c :: r => decl_text c ++ go r end) ch ++ struct_decl_text s
  | NEnum _ name id items => enum_decl_text name id items
  | NConst _ _ => []
  | NAnn name id targets => ann_text name id targets
  end.

(** ** Definitions *)
(** emit_reference_as_child: struct_.py:97-100, enum.py:22-25, node.py:145-176.
    [nested]: is_nested *)
Definition ref_text (nested : bool) (n : mnode) : list str :=
  match n with
  | NStruct s _ => if nested && negb (sd_group s) then [sd_short s ++ lit " = " ++ sd_name s] else []
  | NEnum short name _ _ => if nested then [short ++ lit " = " ++ name] else []
  | NConst name value => [name ++ lit " = " ++ value]
  | NAnn _ _ _ => []
  end.
(** struct_.py:119-130 *)
Definition tag_text (s : struct_decl) : list str :=
  match sn_utag (sd_sn s), sd_items s with
  | Some u, _ :: _ => [ln 4 (lit "__tag__ = " ++ tag_name s); ln 4 (lit "__tag_offset__ = " ++ dec (u * 2)); blank_line 4]
  | _, _ => []
  end.
(** struct_.py:69-88 *)
Definition struct_body_text (s : struct_decl) (children : list mnode) : list str :=
  [ln 4 (lit "__capnpy_id__ = " ++ hex_text (sd_id s));
   ln 4 (lit "__static_data_size__ = " ++ dec (sn_ds (sd_sn s)));
   ln 4 (lit "__static_ptrs_size__ = " ++ dec (sn_ps (sd_sn s)));
   blank_line 4] ++
  map (ln 4) (flat_map (ref_text true) children) ++ [blank_line 4] ++
  tag_text s ++
  class_text fl (nm (sd_name s)) 4 (sd_name s) (sd_group s) (sd_sn s) ++
  repr_text 4 (sd_fields s) ++
  match sd_key s with Some l => key_method 4 l | None => [] end.
(** struct_.py:55-95 *)
Definition struct_def_text (s : struct_decl) (children : list mnode) : list str :=
  [lit "@" ++ sd_name s ++ lit ".__extend__"; lit "class " ++ sd_name s ++ lit "(_Struct):"] ++
  struct_body_text s children ++
  [[]; lit "_" ++ sd_name s ++ lit "_list_item_type = _StructItemType(" ++ sd_name s ++ lit ")"; []].
Fixpoint def_text (n : mnode) : list str :=
  match n with
  | NStruct s ch => (fix go l := match l with [] => [] | c :: r => def_text c ++ go r end) ch ++ struct_def_text s ch
  | _ => []
  end.

(** ** The module (request.py:22-124) *)
Definition import_lines : list string :=
  ["from capnpy import ptr as _ptr";
   "from capnpy.struct_ import Struct as _Struct";
   "from capnpy.struct_ import check_tag as _check_tag";
   "from capnpy.struct_ import undefined as _undefined";
   "from capnpy.enum import enum as _enum, fill_enum as _fill_enum";
   "from capnpy.enum import BaseEnum as _BaseEnum";
   "from capnpy.type import Types as _Types";
   "from capnpy.segment.segment import Segment as _Segment";
   "from capnpy.segment.segment import MultiSegment as _MultiSegment";
   "from capnpy.segment.builder import SegmentBuilder as _SegmentBuilder";
   "from capnpy.list import List as _List";
   "from capnpy.list import PrimitiveItemType as _PrimitiveItemType";
   "from capnpy.list import BoolItemType as _BoolItemType";
   "from capnpy.list import TextItemType as _TextItemType";
   "from capnpy.list import TextUnicodeItemType as _TextUnicodeItemType";
   "from capnpy.list import StructItemType as _StructItemType";
   "from capnpy.list import EnumItemType as _EnumItemType";
   "from capnpy.list import VoidItemType as _VoidItemType";
   "from capnpy.list import ListItemType as _ListItemType";
   "from capnpy.anypointer import AnyPointer as _AnyPointer";
   "from capnpy.util import text_bytes_repr as _text_bytes_repr";
   "from capnpy.util import text_unicode_repr as _text_unicode_repr";
   "from capnpy.util import data_repr as _data_repr";
   "from capnpy.util import float32_repr as _float32_repr";
   "from capnpy.util import float64_repr as _float64_repr";
   "from capnpy.util import extend_module_maybe as _extend_module_maybe";
   "from capnpy.util import check_version as _check_version";
   "from capnpy.util import encode_maybe as _encode_maybe"].
(** a constant struct in one segment (module.py:194-218): buffer, offset, sizes *)
Definition seg_const := (bytes * Z * Z * Z)%type.
Definition const_text (cls : str) (c : seg_const) : str :=
  match c with (b, off, ds, ps) =>
    cls ++ lit ".from_buffer(_Segment(b" ++ Repr.bytes_repr b ++ lit "), " ++ dec off ++ lit ", " ++ dec ds ++ lit ", " ++ dec ps ++ lit ")"
  end.
Record header := mkheader {
  h_date : str; h_id : Z; h_version : str; h_capnproto : str; h_check : bool; h_standalone : bool;
  h_reflection : option (str * seg_const * seg_const) }.
Definition header_text (h : header) : list str :=
  [lit "# THIS FILE HAS BEEN GENERATED AUTOMATICALLY BY capnpy"; lit "# do not edit by hand";
   lit "# generated on " ++ h_date h; lit "# cython: language_level=2"; []] ++
  map lit import_lines ++
  [lit "__capnpy_id__ = " ++ hex_text (h_id h);
   lit "__capnpy_version__ = " ++ quoted (h_version h);
   lit "__capnproto_version__ = " ++ quoted (h_capnproto h);
   if h_check h then lit "_check_version(__name__, __capnpy_version__)"
   else lit "# schema compiled with --no-version-check, skipping the call to _check_version"] ++
  match h_reflection h with
  | None => [lit "# not including reflection data"]
  | Some (modname, request, options) =>
      [lit "from capnpy.schema import CodeGeneratorRequest as _CodeGeneratorRequest";
       lit "from capnpy.annotate import Options as _Options";
       lit "from capnpy.reflection import ReflectionData as _ReflectionData";
       lit "class _" ++ modname ++ lit "_ReflectionData(_ReflectionData):";
       ln 4 (lit "request = " ++ const_text (lit "_CodeGeneratorRequest") request);
       ln 4 (lit "default_options = " ++ const_text (lit "_Options") options);
       ln 4 (lit "pyx = False");
       lit "_reflection_data = _" ++ modname ++ lit "_ReflectionData()"]
  end ++ [[]].
Definition module_text (h : header) (nodes : list mnode) : list str :=
  header_text h ++
  [lit "#### FORWARD DECLARATIONS ####"; []] ++ flat_map decl_text nodes ++ [[]] ++
  [lit "#### DEFINITIONS ####"; []] ++ flat_map def_text nodes ++
  flat_map (ref_text false) nodes ++ [[]] ++
  [lit "_extend_module_maybe(globals(), " ++ lit (if h_standalone h then "modname=__name__)" else "filename=__schema__)"); []].
End text.
