(** The text of the methods of the classes of capnpy/schema.py and
    capnpy/annotate.py, word for word, from the first is_foo to the last
    constructor, and the names in it. Written by tools/gen_schematext.py. *)
From Verif Require Import Base List Ctor Loader GenText.
From Coq Require Import String.
From Coq Require Import Lists.List.
Local Open Scope string_scope.
Local Open Scope list_scope.
Local Open Scope Z_scope.

Definition table := list (string * string * (string * string * string * string * string)).
Definition names_in (t : table) (prefix n : string) : names :=
  match find (fun x => String.eqb (fst (fst x)) prefix && String.eqb (snd (fst x)) n) t with
  | Some (_, (a, b, c, d, e)) => mknames (lit a) (lit b) (lit c) (lit d) (lit e)
  | None => mknames [] [] [] [] []
  end.

(** schema.py:223-302 *)
Definition t_Field_slot_node : struct_node := mksn 3 4 None
  [FSlot "offset" 0 None (TPrim FI) 1 false 0;
   FSlot "type" 1 None TStruct 2 false 0;
   FSlot "defaultValue" 2 None TStruct 3 false 0;
   FSlot "hadExplicitDefault" 3 None TBool 128 false 0].
Definition t_Field_slot_names : table := [("", "type", ("Type", "", "", "", ""));
  ("", "defaultValue", ("Value", "", "", "", ""))].
Definition t_Field_slot : list string := [
"    @property";
"    def offset(self):";
"        # no union check";
"        value = self._read_primitive(4, ord(b'I'))";
"        if 0 != 0:";
"            value = value ^ 0";
"        return value";
"    ";
"    @property";
"    def type(self):";
"        # no union check";
"        offset = 16";
"        p = self._read_fast_ptr(offset)";
"        if _ptr.kind(p) == _ptr.FAR:";
"            offset, p = self._read_far_ptr(offset)";
"        else:";
"            offset += self._ptrs_offset";
"        if p == 0:";
"            return None";
"        obj = Type.__new__(Type)";
"        obj._init_from_pointer(self._seg, offset, p)";
"        return obj";
"    ";
"    def get_type(self):";
"        res = self.type";
"        if res is None:";
"            return Type.from_buffer(b'', 0, data_size=0, ptrs_size=0)";
"        return res";
"    ";
"    def has_type(self):";
"        ptr = self._read_fast_ptr(16)";
"        return ptr != 0";
"    ";
"    @property";
"    def defaultValue(self):";
"        # no union check";
"        offset = 24";
"        p = self._read_fast_ptr(offset)";
"        if _ptr.kind(p) == _ptr.FAR:";
"            offset, p = self._read_far_ptr(offset)";
"        else:";
"            offset += self._ptrs_offset";
"        if p == 0:";
"            return None";
"        obj = Value.__new__(Value)";
"        obj._init_from_pointer(self._seg, offset, p)";
"        return obj";
"    ";
"    def get_defaultValue(self):";
"        res = self.defaultValue";
"        if res is None:";
"            return Value.from_buffer(b'', 0, data_size=0, ptrs_size=0)";
"        return res";
"    ";
"    def has_defaultValue(self):";
"        ptr = self._read_fast_ptr(24)";
"        return ptr != 0";
"    ";
"    @property";
"    def hadExplicitDefault(self):";
"        # no union check";
"        value = self._read_bit(16, 1)";
"        if False != 0:";
"            value = value ^ False";
"        return value";
"    "].

(** schema.py:306-324 *)
Definition t_Field_group_node : struct_node := mksn 3 4 None
  [FSlot "typeId" 0 None (TPrim FQ) 2 false 0].
Definition t_Field_group_names : table := [].
Definition t_Field_group : list string := [
"    @property";
"    def typeId(self):";
"        # no union check";
"        value = self._read_primitive(16, ord(b'Q'))";
"        if 0 != 0:";
"            value = value ^ 0";
"        return value";
"    "].

(** schema.py:328-360 *)
Definition t_Field_ordinal_node : struct_node := mksn 3 4 (Some 5)
  [FSlot "implicit" 0 (Some 0) TVoid 0 false 0;
   FSlot "explicit" 1 (Some 1) (TPrim FH) 6 false 0].
Definition t_Field_ordinal_names : table := [].
Definition t_Field_ordinal : list string := [
"    def is_implicit(self):";
"        return self._read_int16(10) == 0";
"    def is_explicit(self):";
"        return self._read_int16(10) == 1";
"    ";
"    @property";
"    def implicit(self):";
"        self._ensure_union(0)";
"        return None";
"    ";
"    @property";
"    def explicit(self):";
"        self._ensure_union(1)";
"        value = self._read_primitive(12, ord(b'H'))";
"        if 0 != 0:";
"            value = value ^ 0";
"        return value";
"    "].

(** schema.py:364-516 *)
Definition t_Field_node : struct_node := mksn 3 4 (Some 4)
  [FSlot "name" 0 None TText 0 false 0;
   FSlot "codeOrder" 1 None (TPrim FH) 0 false 0;
   FSlot "annotations" 2 None (TList (ITStruct 1 2)) 1 false 0;
   FSlot "discriminantValue" 3 None (TPrim FH) 1 true 65535;
   FGroup "slot" 4 (Some 0) false None
      [FSlot "offset" 0 None (TPrim FI) 1 false 0;
       FSlot "type" 1 None TStruct 2 false 0;
       FSlot "defaultValue" 2 None TStruct 3 false 0;
       FSlot "hadExplicitDefault" 3 None TBool 128 false 0];
   FGroup "group" 5 (Some 1) false None
      [FSlot "typeId" 0 None (TPrim FQ) 2 false 0];
   FGroup "ordinal" 6 None false (Some 5)
      [FSlot "implicit" 0 (Some 0) TVoid 0 false 0;
       FSlot "explicit" 1 (Some 1) (TPrim FH) 6 false 0]].
Definition t_Field_names : table := [("", "annotations", ("", "", "", "_Annotation_list_item_type", ""));
  ("", "slot", ("", "", "Field_slot", "", ""));
  ("", "group", ("", "", "Field_group", "", ""));
  ("", "ordinal", ("", "", "Field_ordinal", "", ""));
  ("slot", "type", ("Type", "", "", "", ""));
  ("slot", "defaultValue", ("Value", "", "", "", ""))].
Definition t_Field : list string := [
"    def is_slot(self):";
"        return self._read_int16(8) == 0";
"    def is_group(self):";
"        return self._read_int16(8) == 1";
"    ";
"    @property";
"    def name(self):";
"        # no union check";
"        return self._read_text_bytes(0)";
"    ";
"    def get_name(self):";
"        return self._read_text_bytes(0, default_=b"""")";
"    ";
"    def has_name(self):";
"        ptr = self._read_fast_ptr(0)";
"        return ptr != 0";
"    ";
"    @property";
"    def codeOrder(self):";
"        # no union check";
"        value = self._read_primitive(0, ord(b'H'))";
"        if 0 != 0:";
"            value = value ^ 0";
"        return value";
"    ";
"    @property";
"    def annotations(self):";
"        # no union check";
"        return self._read_list(8, _Annotation_list_item_type)";
"    ";
"    def get_annotations(self):";
"        res = self.annotations";
"        if res is None:";
"            return _List.from_buffer(b'', 0, 0, 0, _Annotation_list_item_type)";
"        return res";
"    ";
"    def has_annotations(self):";
"        ptr = self._read_fast_ptr(8)";
"        return ptr != 0";
"    ";
"    @property";
"    def discriminantValue(self):";
"        # no union check";
"        value = self._read_primitive(2, ord(b'H'))";
"        if 65535 != 0:";
"            value = value ^ 65535";
"        return value";
"    ";
"    @property";
"    def slot(self):";
"        self._ensure_union(0)";
"        obj = Field_slot.__new__(Field_slot)";
"        _Struct._init_from_buffer(obj, self._seg, self._data_offset,";
"                                  self._data_size, self._ptrs_size)";
"        return obj";
"    ";
"    @staticmethod";
"    def Slot(offset=0, type=None, defaultValue=None, hadExplicitDefault=False):";
"        return offset, type, defaultValue, hadExplicitDefault,";
"    ";
"    @property";
"    def group(self):";
"        self._ensure_union(1)";
"        obj = Field_group.__new__(Field_group)";
"        _Struct._init_from_buffer(obj, self._seg, self._data_offset,";
"                                  self._data_size, self._ptrs_size)";
"        return obj";
"    ";
"    @staticmethod";
"    def Group(typeId=0):";
"        return typeId,";
"    ";
"    @property";
"    def ordinal(self):";
"        # no union check";
"        obj = Field_ordinal.__new__(Field_ordinal)";
"        _Struct._init_from_buffer(obj, self._seg, self._data_offset,";
"                                  self._data_size, self._ptrs_size)";
"        return obj";
"    ";
"    @staticmethod";
"    def Ordinal(implicit=_undefined, explicit=_undefined):";
"        return implicit, explicit,";
"    ";
"    @staticmethod";
"    def __new(name=None, codeOrder=0, annotations=None, discriminantValue=65535, slot=_undefined, group=_undefined, ordinal=(_undefined, _undefined,)):";
"        builder = _SegmentBuilder()";
"        pos = builder.allocate(56)";
"        anonymous__curtag = None";
"        ordinal__curtag = None";
"        builder.alloc_text(pos + 24, name)";
"        builder.write_uint16(pos + 0, codeOrder)";
"        builder.copy_from_list(pos + 32, _Annotation_list_item_type, annotations)";
"        discriminantValue ^= 65535";
"        builder.write_uint16(pos + 2, discriminantValue)";
"        if slot is not _undefined:";
"            anonymous__curtag = _check_tag(anonymous__curtag, 'slot')";
"            builder.write_int16(8, 0)";
"            slot_offset, slot_type, slot_defaultValue, slot_hadExplicitDefault, = slot";
"            builder.write_uint32(pos + 4, slot_offset)";
"            builder.copy_from_struct(pos + 40, Type, slot_type)";
"            builder.copy_from_struct(pos + 48, Value, slot_defaultValue)";
"            builder.write_bool(16, 0, slot_hadExplicitDefault)";
"        if group is not _undefined:";
"            anonymous__curtag = _check_tag(anonymous__curtag, 'group')";
"            builder.write_int16(8, 1)";
"            group_typeId, = group";
"            builder.write_uint64(pos + 16, group_typeId)";
"        ordinal_implicit, ordinal_explicit, = ordinal";
"        if ordinal_implicit is not _undefined:";
"            ordinal__curtag = _check_tag(ordinal__curtag, 'implicit')";
"            builder.write_int16(10, 0)";
"        if ordinal_explicit is not _undefined:";
"            ordinal__curtag = _check_tag(ordinal__curtag, 'explicit')";
"            builder.write_int16(10, 1)";
"            builder.write_uint16(pos + 12, ordinal_explicit)";
"        return builder.as_string()";
"    ";
"    def __init__(self, name=None, codeOrder=0, annotations=None, discriminantValue=65535, slot=_undefined, group=_undefined, ordinal=(_undefined, _undefined,)):";
"        _buf = Field.__new(name, codeOrder, annotations, discriminantValue, slot, group, ordinal)";
"        self._init_from_buffer(_buf, 0, 3, 4)";
"    ";
"    @classmethod";
"    def new_slot(cls, name=None, codeOrder=0, annotations=None, discriminantValue=65535, slot=(0, None, None, False,), ordinal=(_undefined, _undefined,)):";
"        buf = Field.__new(name=name, codeOrder=codeOrder, annotations=annotations, discriminantValue=discriminantValue, slot=slot, ordinal=ordinal, group=_undefined)";
"        return cls.from_buffer(buf, 0, 3, 4)";
"    ";
"    @classmethod";
"    def new_group(cls, name=None, codeOrder=0, annotations=None, discriminantValue=65535, group=(0,), ordinal=(_undefined, _undefined,)):";
"        buf = Field.__new(name=name, codeOrder=codeOrder, annotations=annotations, discriminantValue=discriminantValue, group=group, ordinal=ordinal, slot=_undefined)";
"        return cls.from_buffer(buf, 0, 3, 4)";
"    "].

(** schema.py:520-599 *)
Definition t_Node_struct_node : struct_node := mksn 5 6 None
  [FSlot "dataWordCount" 0 None (TPrim FH) 7 false 0;
   FSlot "pointerCount" 1 None (TPrim FH) 12 false 0;
   FSlot "preferredListEncoding" 2 None TEnum 13 false 0;
   FSlot "isGroup" 3 None TBool 224 false 0;
   FSlot "discriminantCount" 4 None (TPrim FH) 15 false 0;
   FSlot "discriminantOffset" 5 None (TPrim FI) 8 false 0;
   FSlot "fields" 6 None (TList (ITStruct 3 4)) 3 false 0].
Definition t_Node_struct_names : table := [("", "preferredListEncoding", ("", "ElementSize", "", "", ""));
  ("", "fields", ("", "", "", "_Field_list_item_type", ""))].
Definition t_Node_struct : list string := [
"    @property";
"    def dataWordCount(self):";
"        # no union check";
"        value = self._read_primitive(14, ord(b'H'))";
"        if 0 != 0:";
"            value = value ^ 0";
"        return value";
"    ";
"    @property";
"    def pointerCount(self):";
"        # no union check";
"        value = self._read_primitive(24, ord(b'H'))";
"        if 0 != 0:";
"            value = value ^ 0";
"        return value";
"    ";
"    @property";
"    def preferredListEncoding(self):";
"        # no union check";
"        value = self._read_int16(26)";
"        if 0 != 0:";
"            value = (value ^ 0)";
"        return ElementSize._new(value)";
"    ";
"    @property";
"    def isGroup(self):";
"        # no union check";
"        value = self._read_bit(28, 1)";
"        if False != 0:";
"            value = value ^ False";
"        return value";
"    ";
"    @property";
"    def discriminantCount(self):";
"        # no union check";
"        value = self._read_primitive(30, ord(b'H'))";
"        if 0 != 0:";
"            value = value ^ 0";
"        return value";
"    ";
"    @property";
"    def discriminantOffset(self):";
"        # no union check";
"        value = self._read_primitive(32, ord(b'I'))";
"        if 0 != 0:";
"            value = value ^ 0";
"        return value";
"    ";
"    @property";
"    def fields(self):";
"        # no union check";
"        return self._read_list(24, _Field_list_item_type)";
"    ";
"    def get_fields(self):";
"        res = self.fields";
"        if res is None:";
"            return _List.from_buffer(b'', 0, 0, 0, _Field_list_item_type)";
"        return res";
"    ";
"    def has_fields(self):";
"        ptr = self._read_fast_ptr(24)";
"        return ptr != 0";
"    "].

(** schema.py:603-628 *)
Definition t_Node_enum_node : struct_node := mksn 5 6 None
  [FSlot "enumerants" 0 None (TList (ITStruct 1 2)) 3 false 0].
Definition t_Node_enum_names : table := [("", "enumerants", ("", "", "", "_Enumerant_list_item_type", ""))].
Definition t_Node_enum : list string := [
"    @property";
"    def enumerants(self):";
"        # no union check";
"        return self._read_list(24, _Enumerant_list_item_type)";
"    ";
"    def get_enumerants(self):";
"        res = self.enumerants";
"        if res is None:";
"            return _List.from_buffer(b'', 0, 0, 0, _Enumerant_list_item_type)";
"        return res";
"    ";
"    def has_enumerants(self):";
"        ptr = self._read_fast_ptr(24)";
"        return ptr != 0";
"    "].

(** schema.py:632-673 *)
Definition t_Node_interface_node : struct_node := mksn 5 6 None
  [FSlot "methods" 0 None (TList (ITStruct 3 5)) 3 false 0;
   FSlot "superclasses" 1 None (TList (ITStruct 1 1)) 4 false 0].
Definition t_Node_interface_names : table := [("", "methods", ("", "", "", "_Method_list_item_type", ""));
  ("", "superclasses", ("", "", "", "_Superclass_list_item_type", ""))].
Definition t_Node_interface : list string := [
"    @property";
"    def methods(self):";
"        # no union check";
"        return self._read_list(24, _Method_list_item_type)";
"    ";
"    def get_methods(self):";
"        res = self.methods";
"        if res is None:";
"            return _List.from_buffer(b'', 0, 0, 0, _Method_list_item_type)";
"        return res";
"    ";
"    def has_methods(self):";
"        ptr = self._read_fast_ptr(24)";
"        return ptr != 0";
"    ";
"    @property";
"    def superclasses(self):";
"        # no union check";
"        return self._read_list(32, _Superclass_list_item_type)";
"    ";
"    def get_superclasses(self):";
"        res = self.superclasses";
"        if res is None:";
"            return _List.from_buffer(b'', 0, 0, 0, _Superclass_list_item_type)";
"        return res";
"    ";
"    def has_superclasses(self):";
"        ptr = self._read_fast_ptr(32)";
"        return ptr != 0";
"    "].

(** schema.py:677-738 *)
Definition t_Node_const_node : struct_node := mksn 5 6 None
  [FSlot "type" 0 None TStruct 3 false 0;
   FSlot "value" 1 None TStruct 4 false 0].
Definition t_Node_const_names : table := [("", "type", ("Type", "", "", "", ""));
  ("", "value", ("Value", "", "", "", ""))].
Definition t_Node_const : list string := [
"    @property";
"    def type(self):";
"        # no union check";
"        offset = 24";
"        p = self._read_fast_ptr(offset)";
"        if _ptr.kind(p) == _ptr.FAR:";
"            offset, p = self._read_far_ptr(offset)";
"        else:";
"            offset += self._ptrs_offset";
"        if p == 0:";
"            return None";
"        obj = Type.__new__(Type)";
"        obj._init_from_pointer(self._seg, offset, p)";
"        return obj";
"    ";
"    def get_type(self):";
"        res = self.type";
"        if res is None:";
"            return Type.from_buffer(b'', 0, data_size=0, ptrs_size=0)";
"        return res";
"    ";
"    def has_type(self):";
"        ptr = self._read_fast_ptr(24)";
"        return ptr != 0";
"    ";
"    @property";
"    def value(self):";
"        # no union check";
"        offset = 32";
"        p = self._read_fast_ptr(offset)";
"        if _ptr.kind(p) == _ptr.FAR:";
"            offset, p = self._read_far_ptr(offset)";
"        else:";
"            offset += self._ptrs_offset";
"        if p == 0:";
"            return None";
"        obj = Value.__new__(Value)";
"        obj._init_from_pointer(self._seg, offset, p)";
"        return obj";
"    ";
"    def get_value(self):";
"        res = self.value";
"        if res is None:";
"            return Value.from_buffer(b'', 0, data_size=0, ptrs_size=0)";
"        return res";
"    ";
"    def has_value(self):";
"        ptr = self._read_fast_ptr(32)";
"        return ptr != 0";
"    "].

(** schema.py:742-885 *)
Definition t_Node_annotation_node : struct_node := mksn 5 6 None
  [FSlot "type" 0 None TStruct 3 false 0;
   FSlot "targetsFile" 1 None TBool 112 false 0;
   FSlot "targetsConst" 2 None TBool 113 false 0;
   FSlot "targetsEnum" 3 None TBool 114 false 0;
   FSlot "targetsEnumerant" 4 None TBool 115 false 0;
   FSlot "targetsStruct" 5 None TBool 116 false 0;
   FSlot "targetsField" 6 None TBool 117 false 0;
   FSlot "targetsUnion" 7 None TBool 118 false 0;
   FSlot "targetsGroup" 8 None TBool 119 false 0;
   FSlot "targetsInterface" 9 None TBool 120 false 0;
   FSlot "targetsMethod" 10 None TBool 121 false 0;
   FSlot "targetsParam" 11 None TBool 122 false 0;
   FSlot "targetsAnnotation" 12 None TBool 123 false 0].
Definition t_Node_annotation_names : table := [("", "type", ("Type", "", "", "", ""))].
Definition t_Node_annotation : list string := [
"    @property";
"    def type(self):";
"        # no union check";
"        offset = 24";
"        p = self._read_fast_ptr(offset)";
"        if _ptr.kind(p) == _ptr.FAR:";
"            offset, p = self._read_far_ptr(offset)";
"        else:";
"            offset += self._ptrs_offset";
"        if p == 0:";
"            return None";
"        obj = Type.__new__(Type)";
"        obj._init_from_pointer(self._seg, offset, p)";
"        return obj";
"    ";
"    def get_type(self):";
"        res = self.type";
"        if res is None:";
"            return Type.from_buffer(b'', 0, data_size=0, ptrs_size=0)";
"        return res";
"    ";
"    def has_type(self):";
"        ptr = self._read_fast_ptr(24)";
"        return ptr != 0";
"    ";
"    @property";
"    def targetsFile(self):";
"        # no union check";
"        value = self._read_bit(14, 1)";
"        if False != 0:";
"            value = value ^ False";
"        return value";
"    ";
"    @property";
"    def targetsConst(self):";
"        # no union check";
"        value = self._read_bit(14, 2)";
"        if False != 0:";
"            value = value ^ False";
"        return value";
"    ";
"    @property";
"    def targetsEnum(self):";
"        # no union check";
"        value = self._read_bit(14, 4)";
"        if False != 0:";
"            value = value ^ False";
"        return value";
"    ";
"    @property";
"    def targetsEnumerant(self):";
"        # no union check";
"        value = self._read_bit(14, 8)";
"        if False != 0:";
"            value = value ^ False";
"        return value";
"    ";
"    @property";
"    def targetsStruct(self):";
"        # no union check";
"        value = self._read_bit(14, 16)";
"        if False != 0:";
"            value = value ^ False";
"        return value";
"    ";
"    @property";
"    def targetsField(self):";
"        # no union check";
"        value = self._read_bit(14, 32)";
"        if False != 0:";
"            value = value ^ False";
"        return value";
"    ";
"    @property";
"    def targetsUnion(self):";
"        # no union check";
"        value = self._read_bit(14, 64)";
"        if False != 0:";
"            value = value ^ False";
"        return value";
"    ";
"    @property";
"    def targetsGroup(self):";
"        # no union check";
"        value = self._read_bit(14, 128)";
"        if False != 0:";
"            value = value ^ False";
"        return value";
"    ";
"    @property";
"    def targetsInterface(self):";
"        # no union check";
"        value = self._read_bit(15, 1)";
"        if False != 0:";
"            value = value ^ False";
"        return value";
"    ";
"    @property";
"    def targetsMethod(self):";
"        # no union check";
"        value = self._read_bit(15, 2)";
"        if False != 0:";
"            value = value ^ False";
"        return value";
"    ";
"    @property";
"    def targetsParam(self):";
"        # no union check";
"        value = self._read_bit(15, 4)";
"        if False != 0:";
"            value = value ^ False";
"        return value";
"    ";
"    @property";
"    def targetsAnnotation(self):";
"        # no union check";
"        value = self._read_bit(15, 8)";
"        if False != 0:";
"            value = value ^ False";
"        return value";
"    "].

(** schema.py:889-932 *)
Definition t_Node_NestedNode_node : struct_node := mksn 1 1 None
  [FSlot "name" 0 None TText 0 false 0;
   FSlot "id" 1 None (TPrim FQ) 0 false 0].
Definition t_Node_NestedNode_names : table := [].
Definition t_Node_NestedNode : list string := [
"    @property";
"    def name(self):";
"        # no union check";
"        return self._read_text_bytes(0)";
"    ";
"    def get_name(self):";
"        return self._read_text_bytes(0, default_=b"""")";
"    ";
"    def has_name(self):";
"        ptr = self._read_fast_ptr(0)";
"        return ptr != 0";
"    ";
"    @property";
"    def id(self):";
"        # no union check";
"        value = self._read_primitive(0, ord(b'Q'))";
"        if 0 != 0:";
"            value = value ^ 0";
"        return value";
"    ";
"    @staticmethod";
"    def __new(name=None, id=0):";
"        builder = _SegmentBuilder()";
"        pos = builder.allocate(16)";
"        builder.alloc_text(pos + 8, name)";
"        builder.write_uint64(pos + 0, id)";
"        return builder.as_string()";
"    ";
"    def __init__(self, name=None, id=0):";
"        _buf = Node_NestedNode.__new(name, id)";
"        self._init_from_buffer(_buf, 0, 1, 1)";
"    "].

(** schema.py:936-969 *)
Definition t_Node_Parameter_node : struct_node := mksn 0 1 None
  [FSlot "name" 0 None TText 0 false 0].
Definition t_Node_Parameter_names : table := [].
Definition t_Node_Parameter : list string := [
"    @property";
"    def name(self):";
"        # no union check";
"        return self._read_text_bytes(0)";
"    ";
"    def get_name(self):";
"        return self._read_text_bytes(0, default_=b"""")";
"    ";
"    def has_name(self):";
"        ptr = self._read_fast_ptr(0)";
"        return ptr != 0";
"    ";
"    @staticmethod";
"    def __new(name=None):";
"        builder = _SegmentBuilder()";
"        pos = builder.allocate(8)";
"        builder.alloc_text(pos + 0, name)";
"        return builder.as_string()";
"    ";
"    def __init__(self, name=None):";
"        _buf = Node_Parameter.__new(name)";
"        self._init_from_buffer(_buf, 0, 0, 1)";
"    "].

(** schema.py:973-1006 *)
Definition t_Node_SourceInfo_Member_node : struct_node := mksn 0 1 None
  [FSlot "docComment" 0 None TText 0 false 0].
Definition t_Node_SourceInfo_Member_names : table := [].
Definition t_Node_SourceInfo_Member : list string := [
"    @property";
"    def docComment(self):";
"        # no union check";
"        return self._read_text_bytes(0)";
"    ";
"    def get_docComment(self):";
"        return self._read_text_bytes(0, default_=b"""")";
"    ";
"    def has_docComment(self):";
"        ptr = self._read_fast_ptr(0)";
"        return ptr != 0";
"    ";
"    @staticmethod";
"    def __new(docComment=None):";
"        builder = _SegmentBuilder()";
"        pos = builder.allocate(8)";
"        builder.alloc_text(pos + 0, docComment)";
"        return builder.as_string()";
"    ";
"    def __init__(self, docComment=None):";
"        _buf = Node_SourceInfo_Member.__new(docComment)";
"        self._init_from_buffer(_buf, 0, 0, 1)";
"    "].

(** schema.py:1010-1071 *)
Definition t_Node_SourceInfo_node : struct_node := mksn 1 2 None
  [FSlot "id" 0 None (TPrim FQ) 0 false 0;
   FSlot "docComment" 1 None TText 0 false 0;
   FSlot "members" 2 None (TList (ITStruct 0 1)) 1 false 0].
Definition t_Node_SourceInfo_names : table := [("", "members", ("", "", "", "_Node_SourceInfo_Member_list_item_type", ""))].
Definition t_Node_SourceInfo : list string := [
"    @property";
"    def id(self):";
"        # no union check";
"        value = self._read_primitive(0, ord(b'Q'))";
"        if 0 != 0:";
"            value = value ^ 0";
"        return value";
"    ";
"    @property";
"    def docComment(self):";
"        # no union check";
"        return self._read_text_bytes(0)";
"    ";
"    def get_docComment(self):";
"        return self._read_text_bytes(0, default_=b"""")";
"    ";
"    def has_docComment(self):";
"        ptr = self._read_fast_ptr(0)";
"        return ptr != 0";
"    ";
"    @property";
"    def members(self):";
"        # no union check";
"        return self._read_list(8, _Node_SourceInfo_Member_list_item_type)";
"    ";
"    def get_members(self):";
"        res = self.members";
"        if res is None:";
"            return _List.from_buffer(b'', 0, 0, 0, _Node_SourceInfo_Member_list_item_type)";
"        return res";
"    ";
"    def has_members(self):";
"        ptr = self._read_fast_ptr(8)";
"        return ptr != 0";
"    ";
"    @staticmethod";
"    def __new(id=0, docComment=None, members=None):";
"        builder = _SegmentBuilder()";
"        pos = builder.allocate(24)";
"        builder.write_uint64(pos + 0, id)";
"        builder.alloc_text(pos + 8, docComment)";
"        builder.copy_from_list(pos + 16, _Node_SourceInfo_Member_list_item_type, members)";
"        return builder.as_string()";
"    ";
"    def __init__(self, id=0, docComment=None, members=None):";
"        _buf = Node_SourceInfo.__new(id, docComment, members)";
"        self._init_from_buffer(_buf, 0, 1, 2)";
"    "].

(** schema.py:1075-1368 *)
Definition t_Node_node : struct_node := mksn 5 6 (Some 6)
  [FSlot "id" 0 None (TPrim FQ) 0 false 0;
   FSlot "displayName" 1 None TText 0 false 0;
   FSlot "displayNamePrefixLength" 2 None (TPrim FI) 2 false 0;
   FSlot "scopeId" 3 None (TPrim FQ) 2 false 0;
   FSlot "nestedNodes" 4 None (TList (ITStruct 1 1)) 1 false 0;
   FSlot "annotations" 5 None (TList (ITStruct 1 2)) 2 false 0;
   FSlot "file" 6 (Some 0) TVoid 0 false 0;
   FGroup "struct" 7 (Some 1) false None
      [FSlot "dataWordCount" 0 None (TPrim FH) 7 false 0;
       FSlot "pointerCount" 1 None (TPrim FH) 12 false 0;
       FSlot "preferredListEncoding" 2 None TEnum 13 false 0;
       FSlot "isGroup" 3 None TBool 224 false 0;
       FSlot "discriminantCount" 4 None (TPrim FH) 15 false 0;
       FSlot "discriminantOffset" 5 None (TPrim FI) 8 false 0;
       FSlot "fields" 6 None (TList (ITStruct 3 4)) 3 false 0];
   FGroup "enum" 8 (Some 2) false None
      [FSlot "enumerants" 0 None (TList (ITStruct 1 2)) 3 false 0];
   FGroup "interface" 9 (Some 3) false None
      [FSlot "methods" 0 None (TList (ITStruct 3 5)) 3 false 0;
       FSlot "superclasses" 1 None (TList (ITStruct 1 1)) 4 false 0];
   FGroup "const" 10 (Some 4) false None
      [FSlot "type" 0 None TStruct 3 false 0;
       FSlot "value" 1 None TStruct 4 false 0];
   FGroup "annotation" 11 (Some 5) false None
      [FSlot "type" 0 None TStruct 3 false 0;
       FSlot "targetsFile" 1 None TBool 112 false 0;
       FSlot "targetsConst" 2 None TBool 113 false 0;
       FSlot "targetsEnum" 3 None TBool 114 false 0;
       FSlot "targetsEnumerant" 4 None TBool 115 false 0;
       FSlot "targetsStruct" 5 None TBool 116 false 0;
       FSlot "targetsField" 6 None TBool 117 false 0;
       FSlot "targetsUnion" 7 None TBool 118 false 0;
       FSlot "targetsGroup" 8 None TBool 119 false 0;
       FSlot "targetsInterface" 9 None TBool 120 false 0;
       FSlot "targetsMethod" 10 None TBool 121 false 0;
       FSlot "targetsParam" 11 None TBool 122 false 0;
       FSlot "targetsAnnotation" 12 None TBool 123 false 0];
   FSlot "parameters" 12 None (TList (ITStruct 0 1)) 5 false 0;
   FSlot "isGeneric" 13 None TBool 288 false 0].
Definition t_Node_names : table := [("", "nestedNodes", ("", "", "", "_Node_NestedNode_list_item_type", ""));
  ("", "annotations", ("", "", "", "_Annotation_list_item_type", ""));
  ("", "struct", ("", "", "Node_struct", "", ""));
  ("", "enum", ("", "", "Node_enum", "", ""));
  ("", "interface", ("", "", "Node_interface", "", ""));
  ("", "const", ("", "", "Node_const", "", ""));
  ("", "annotation", ("", "", "Node_annotation", "", ""));
  ("", "parameters", ("", "", "", "_Node_Parameter_list_item_type", ""));
  ("struct", "fields", ("", "", "", "_Field_list_item_type", ""));
  ("enum", "enumerants", ("", "", "", "_Enumerant_list_item_type", ""));
  ("interface", "methods", ("", "", "", "_Method_list_item_type", ""));
  ("interface", "superclasses", ("", "", "", "_Superclass_list_item_type", ""));
  ("const", "type", ("Type", "", "", "", ""));
  ("const", "value", ("Value", "", "", "", ""));
  ("annotation", "type", ("Type", "", "", "", ""))].
Definition t_Node : list string := [
"    def is_file(self):";
"        return self._read_int16(12) == 0";
"    def is_struct(self):";
"        return self._read_int16(12) == 1";
"    def is_enum(self):";
"        return self._read_int16(12) == 2";
"    def is_interface(self):";
"        return self._read_int16(12) == 3";
"    def is_const(self):";
"        return self._read_int16(12) == 4";
"    def is_annotation(self):";
"        return self._read_int16(12) == 5";
"    ";
"    @property";
"    def id(self):";
"        # no union check";
"        value = self._read_primitive(0, ord(b'Q'))";
"        if 0 != 0:";
"            value = value ^ 0";
"        return value";
"    ";
"    @property";
"    def displayName(self):";
"        # no union check";
"        return self._read_text_bytes(0)";
"    ";
"    def get_displayName(self):";
"        return self._read_text_bytes(0, default_=b"""")";
"    ";
"    def has_displayName(self):";
"        ptr = self._read_fast_ptr(0)";
"        return ptr != 0";
"    ";
"    @property";
"    def displayNamePrefixLength(self):";
"        # no union check";
"        value = self._read_primitive(8, ord(b'I'))";
"        if 0 != 0:";
"            value = value ^ 0";
"        return value";
"    ";
"    @property";
"    def scopeId(self):";
"        # no union check";
"        value = self._read_primitive(16, ord(b'Q'))";
"        if 0 != 0:";
"            value = value ^ 0";
"        return value";
"    ";
"    @property";
"    def nestedNodes(self):";
"        # no union check";
"        return self._read_list(8, _Node_NestedNode_list_item_type)";
"    ";
"    def get_nestedNodes(self):";
"        res = self.nestedNodes";
"        if res is None:";
"            return _List.from_buffer(b'', 0, 0, 0, _Node_NestedNode_list_item_type)";
"        return res";
"    ";
"    def has_nestedNodes(self):";
"        ptr = self._read_fast_ptr(8)";
"        return ptr != 0";
"    ";
"    @property";
"    def annotations(self):";
"        # no union check";
"        return self._read_list(16, _Annotation_list_item_type)";
"    ";
"    def get_annotations(self):";
"        res = self.annotations";
"        if res is None:";
"            return _List.from_buffer(b'', 0, 0, 0, _Annotation_list_item_type)";
"        return res";
"    ";
"    def has_annotations(self):";
"        ptr = self._read_fast_ptr(16)";
"        return ptr != 0";
"    ";
"    @property";
"    def file(self):";
"        self._ensure_union(0)";
"        return None";
"    ";
"    @property";
"    def struct(self):";
"        self._ensure_union(1)";
"        obj = Node_struct.__new__(Node_struct)";
"        _Struct._init_from_buffer(obj, self._seg, self._data_offset,";
"                                  self._data_size, self._ptrs_size)";
"        return obj";
"    ";
"    @staticmethod";
"    def Struct(dataWordCount=0, pointerCount=0, preferredListEncoding=0, isGroup=False, discriminantCount=0, discriminantOffset=0, fields=None):";
"        return dataWordCount, pointerCount, preferredListEncoding, isGroup, discriminantCount, discriminantOffset, fields,";
"    ";
"    @property";
"    def enum(self):";
"        self._ensure_union(2)";
"        obj = Node_enum.__new__(Node_enum)";
"        _Struct._init_from_buffer(obj, self._seg, self._data_offset,";
"                                  self._data_size, self._ptrs_size)";
"        return obj";
"    ";
"    @staticmethod";
"    def Enum(enumerants=None):";
"        return enumerants,";
"    ";
"    @property";
"    def interface(self):";
"        self._ensure_union(3)";
"        obj = Node_interface.__new__(Node_interface)";
"        _Struct._init_from_buffer(obj, self._seg, self._data_offset,";
"                                  self._data_size, self._ptrs_size)";
"        return obj";
"    ";
"    @staticmethod";
"    def Interface(methods=None, superclasses=None):";
"        return methods, superclasses,";
"    ";
"    @property";
"    def const(self):";
"        self._ensure_union(4)";
"        obj = Node_const.__new__(Node_const)";
"        _Struct._init_from_buffer(obj, self._seg, self._data_offset,";
"                                  self._data_size, self._ptrs_size)";
"        return obj";
"    ";
"    @staticmethod";
"    def Const(type=None, value=None):";
"        return type, value,";
"    ";
"    @property";
"    def annotation(self):";
"        self._ensure_union(5)";
"        obj = Node_annotation.__new__(Node_annotation)";
"        _Struct._init_from_buffer(obj, self._seg, self._data_offset,";
"                                  self._data_size, self._ptrs_size)";
"        return obj";
"    ";
"    @staticmethod";
"    def Annotation(type=None, targetsFile=False, targetsConst=False, targetsEnum=False, targetsEnumerant=False, targetsStruct=False, targetsField=False, targetsUnion=False, targetsGroup=False, targetsInterface=False, targetsMethod=False, targetsParam=False, targetsAnnotation=False):";
"        return type, targetsFile, targetsConst, targetsEnum, targetsEnumerant, targetsStruct, targetsField, targetsUnion, targetsGroup, targetsInterface, targetsMethod, targetsParam, targetsAnnotation,";
"    ";
"    @property";
"    def parameters(self):";
"        # no union check";
"        return self._read_list(40, _Node_Parameter_list_item_type)";
"    ";
"    def get_parameters(self):";
"        res = self.parameters";
"        if res is None:";
"            return _List.from_buffer(b'', 0, 0, 0, _Node_Parameter_list_item_type)";
"        return res";
"    ";
"    def has_parameters(self):";
"        ptr = self._read_fast_ptr(40)";
"        return ptr != 0";
"    ";
"    @property";
"    def isGeneric(self):";
"        # no union check";
"        value = self._read_bit(36, 1)";
"        if False != 0:";
"            value = value ^ False";
"        return value";
"    ";
"    @staticmethod";
"    def __new(id=0, displayName=None, displayNamePrefixLength=0, scopeId=0, nestedNodes=None, annotations=None, file=_undefined, struct=_undefined, enum=_undefined, interface=_undefined, const=_undefined, annotation=_undefined, parameters=None, isGeneric=False):";
"        builder = _SegmentBuilder()";
"        pos = builder.allocate(88)";
"        anonymous__curtag = None";
"        builder.write_uint64(pos + 0, id)";
"        builder.alloc_text(pos + 40, displayName)";
"        builder.write_uint32(pos + 8, displayNamePrefixLength)";
"        builder.write_uint64(pos + 16, scopeId)";
"        builder.copy_from_list(pos + 48, _Node_NestedNode_list_item_type, nestedNodes)";
"        builder.copy_from_list(pos + 56, _Annotation_list_item_type, annotations)";
"        if file is not _undefined:";
"            anonymous__curtag = _check_tag(anonymous__curtag, 'file')";
"            builder.write_int16(12, 0)";
"        if struct is not _undefined:";
"            anonymous__curtag = _check_tag(anonymous__curtag, 'struct')";
"            builder.write_int16(12, 1)";
"            struct_dataWordCount, struct_pointerCount, struct_preferredListEncoding, struct_isGroup, struct_discriminantCount, struct_discriminantOffset, struct_fields, = struct";
"            builder.write_uint16(pos + 14, struct_dataWordCount)";
"            builder.write_uint16(pos + 24, struct_pointerCount)";
"            builder.write_int16(pos + 26, struct_preferredListEncoding)";
"            builder.write_bool(28, 0, struct_isGroup)";
"            builder.write_uint16(pos + 30, struct_discriminantCount)";
"            builder.write_uint32(pos + 32, struct_discriminantOffset)";
"            builder.copy_from_list(pos + 64, _Field_list_item_type, struct_fields)";
"        if enum is not _undefined:";
"            anonymous__curtag = _check_tag(anonymous__curtag, 'enum')";
"            builder.write_int16(12, 2)";
"            enum_enumerants, = enum";
"            builder.copy_from_list(pos + 64, _Enumerant_list_item_type, enum_enumerants)";
"        if interface is not _undefined:";
"            anonymous__curtag = _check_tag(anonymous__curtag, 'interface')";
"            builder.write_int16(12, 3)";
"            interface_methods, interface_superclasses, = interface";
"            builder.copy_from_list(pos + 64, _Method_list_item_type, interface_methods)";
"            builder.copy_from_list(pos + 72, _Superclass_list_item_type, interface_superclasses)";
"        if const is not _undefined:";
"            anonymous__curtag = _check_tag(anonymous__curtag, 'const')";
"            builder.write_int16(12, 4)";
"            const_type, const_value, = const";
"            builder.copy_from_struct(pos + 64, Type, const_type)";
"            builder.copy_from_struct(pos + 72, Value, const_value)";
"        if annotation is not _undefined:";
"            anonymous__curtag = _check_tag(anonymous__curtag, 'annotation')";
"            builder.write_int16(12, 5)";
"            annotation_type, annotation_targetsFile, annotation_targetsConst, annotation_targetsEnum, annotation_targetsEnumerant, annotation_targetsStruct, annotation_targetsField, annotation_targetsUnion, annotation_targetsGroup, annotation_targetsInterface, annotation_targetsMethod, annotation_targetsParam, annotation_targetsAnnotation, = annotation";
"            builder.copy_from_struct(pos + 64, Type, annotation_type)";
"            builder.write_bool(14, 0, annotation_targetsFile)";
"            builder.write_bool(14, 1, annotation_targetsConst)";
"            builder.write_bool(14, 2, annotation_targetsEnum)";
"            builder.write_bool(14, 3, annotation_targetsEnumerant)";
"            builder.write_bool(14, 4, annotation_targetsStruct)";
"            builder.write_bool(14, 5, annotation_targetsField)";
"            builder.write_bool(14, 6, annotation_targetsUnion)";
"            builder.write_bool(14, 7, annotation_targetsGroup)";
"            builder.write_bool(15, 0, annotation_targetsInterface)";
"            builder.write_bool(15, 1, annotation_targetsMethod)";
"            builder.write_bool(15, 2, annotation_targetsParam)";
"            builder.write_bool(15, 3, annotation_targetsAnnotation)";
"        builder.copy_from_list(pos + 80, _Node_Parameter_list_item_type, parameters)";
"        builder.write_bool(36, 0, isGeneric)";
"        return builder.as_string()";
"    ";
"    def __init__(self, id=0, displayName=None, displayNamePrefixLength=0, scopeId=0, nestedNodes=None, annotations=None, file=_undefined, struct=_undefined, enum=_undefined, interface=_undefined, const=_undefined, annotation=_undefined, parameters=None, isGeneric=False):";
"        _buf = Node.__new(id, displayName, displayNamePrefixLength, scopeId, nestedNodes, annotations, file, struct, enum, interface, const, annotation, parameters, isGeneric)";
"        self._init_from_buffer(_buf, 0, 5, 6)";
"    ";
"    @classmethod";
"    def new_file(cls, id=0, displayName=None, displayNamePrefixLength=0, scopeId=0, nestedNodes=None, annotations=None, file=None, parameters=None, isGeneric=False):";
"        buf = Node.__new(id=id, displayName=displayName, displayNamePrefixLength=displayNamePrefixLength, scopeId=scopeId, nestedNodes=nestedNodes, annotations=annotations, file=file, parameters=parameters, isGeneric=isGeneric, struct=_undefined, enum=_undefined, interface=_undefined, const=_undefined, annotation=_undefined)";
"        return cls.from_buffer(buf, 0, 5, 6)";
"    ";
"    @classmethod";
"    def new_struct(cls, id=0, displayName=None, displayNamePrefixLength=0, scopeId=0, nestedNodes=None, annotations=None, struct=(0, 0, 0, False, 0, 0, None,), parameters=None, isGeneric=False):";
"        buf = Node.__new(id=id, displayName=displayName, displayNamePrefixLength=displayNamePrefixLength, scopeId=scopeId, nestedNodes=nestedNodes, annotations=annotations, struct=struct, parameters=parameters, isGeneric=isGeneric, file=_undefined, enum=_undefined, interface=_undefined, const=_undefined, annotation=_undefined)";
"        return cls.from_buffer(buf, 0, 5, 6)";
"    ";
"    @classmethod";
"    def new_enum(cls, id=0, displayName=None, displayNamePrefixLength=0, scopeId=0, nestedNodes=None, annotations=None, enum=(None,), parameters=None, isGeneric=False):";
"        buf = Node.__new(id=id, displayName=displayName, displayNamePrefixLength=displayNamePrefixLength, scopeId=scopeId, nestedNodes=nestedNodes, annotations=annotations, enum=enum, parameters=parameters, isGeneric=isGeneric, file=_undefined, struct=_undefined, interface=_undefined, const=_undefined, annotation=_undefined)";
"        return cls.from_buffer(buf, 0, 5, 6)";
"    ";
"    @classmethod";
"    def new_interface(cls, id=0, displayName=None, displayNamePrefixLength=0, scopeId=0, nestedNodes=None, annotations=None, interface=(None, None,), parameters=None, isGeneric=False):";
"        buf = Node.__new(id=id, displayName=displayName, displayNamePrefixLength=displayNamePrefixLength, scopeId=scopeId, nestedNodes=nestedNodes, annotations=annotations, interface=interface, parameters=parameters, isGeneric=isGeneric, file=_undefined, struct=_undefined, enum=_undefined, const=_undefined, annotation=_undefined)";
"        return cls.from_buffer(buf, 0, 5, 6)";
"    ";
"    @classmethod";
"    def new_const(cls, id=0, displayName=None, displayNamePrefixLength=0, scopeId=0, nestedNodes=None, annotations=None, const=(None, None,), parameters=None, isGeneric=False):";
"        buf = Node.__new(id=id, displayName=displayName, displayNamePrefixLength=displayNamePrefixLength, scopeId=scopeId, nestedNodes=nestedNodes, annotations=annotations, const=const, parameters=parameters, isGeneric=isGeneric, file=_undefined, struct=_undefined, enum=_undefined, interface=_undefined, annotation=_undefined)";
"        return cls.from_buffer(buf, 0, 5, 6)";
"    ";
"    @classmethod";
"    def new_annotation(cls, id=0, displayName=None, displayNamePrefixLength=0, scopeId=0, nestedNodes=None, annotations=None, annotation=(None, False, False, False, False, False, False, False, False, False, False, False, False,), parameters=None, isGeneric=False):";
"        buf = Node.__new(id=id, displayName=displayName, displayNamePrefixLength=displayNamePrefixLength, scopeId=scopeId, nestedNodes=nestedNodes, annotations=annotations, annotation=annotation, parameters=parameters, isGeneric=isGeneric, file=_undefined, struct=_undefined, enum=_undefined, interface=_undefined, const=_undefined)";
"        return cls.from_buffer(buf, 0, 5, 6)";
"    "].

(** schema.py:1372-1432 *)
Definition t_Enumerant_node : struct_node := mksn 1 2 None
  [FSlot "name" 0 None TText 0 false 0;
   FSlot "codeOrder" 1 None (TPrim FH) 0 false 0;
   FSlot "annotations" 2 None (TList (ITStruct 1 2)) 1 false 0].
Definition t_Enumerant_names : table := [("", "annotations", ("", "", "", "_Annotation_list_item_type", ""))].
Definition t_Enumerant : list string := [
"    @property";
"    def name(self):";
"        # no union check";
"        return self._read_text_bytes(0)";
"    ";
"    def get_name(self):";
"        return self._read_text_bytes(0, default_=b"""")";
"    ";
"    def has_name(self):";
"        ptr = self._read_fast_ptr(0)";
"        return ptr != 0";
"    ";
"    @property";
"    def codeOrder(self):";
"        # no union check";
"        value = self._read_primitive(0, ord(b'H'))";
"        if 0 != 0:";
"            value = value ^ 0";
"        return value";
"    ";
"    @property";
"    def annotations(self):";
"        # no union check";
"        return self._read_list(8, _Annotation_list_item_type)";
"    ";
"    def get_annotations(self):";
"        res = self.annotations";
"        if res is None:";
"            return _List.from_buffer(b'', 0, 0, 0, _Annotation_list_item_type)";
"        return res";
"    ";
"    def has_annotations(self):";
"        ptr = self._read_fast_ptr(8)";
"        return ptr != 0";
"    ";
"    @staticmethod";
"    def __new(name=None, codeOrder=0, annotations=None):";
"        builder = _SegmentBuilder()";
"        pos = builder.allocate(24)";
"        builder.alloc_text(pos + 8, name)";
"        builder.write_uint16(pos + 0, codeOrder)";
"        builder.copy_from_list(pos + 16, _Annotation_list_item_type, annotations)";
"        return builder.as_string()";
"    ";
"    def __init__(self, name=None, codeOrder=0, annotations=None):";
"        _buf = Enumerant.__new(name, codeOrder, annotations)";
"        self._init_from_buffer(_buf, 0, 1, 2)";
"    "].

(** schema.py:1436-1587 *)
Definition t_Method_node : struct_node := mksn 3 5 None
  [FSlot "name" 0 None TText 0 false 0;
   FSlot "codeOrder" 1 None (TPrim FH) 0 false 0;
   FSlot "paramStructType" 2 None (TPrim FQ) 1 false 0;
   FSlot "resultStructType" 3 None (TPrim FQ) 2 false 0;
   FSlot "annotations" 4 None (TList (ITStruct 1 2)) 1 false 0;
   FSlot "paramBrand" 5 None TStruct 2 false 0;
   FSlot "resultBrand" 6 None TStruct 3 false 0;
   FSlot "implicitParameters" 7 None (TList (ITStruct 0 1)) 4 false 0].
Definition t_Method_names : table := [("", "annotations", ("", "", "", "_Annotation_list_item_type", ""));
  ("", "paramBrand", ("Brand", "", "", "", ""));
  ("", "resultBrand", ("Brand", "", "", "", ""));
  ("", "implicitParameters", ("", "", "", "_Node_Parameter_list_item_type", ""))].
Definition t_Method : list string := [
"    @property";
"    def name(self):";
"        # no union check";
"        return self._read_text_bytes(0)";
"    ";
"    def get_name(self):";
"        return self._read_text_bytes(0, default_=b"""")";
"    ";
"    def has_name(self):";
"        ptr = self._read_fast_ptr(0)";
"        return ptr != 0";
"    ";
"    @property";
"    def codeOrder(self):";
"        # no union check";
"        value = self._read_primitive(0, ord(b'H'))";
"        if 0 != 0:";
"            value = value ^ 0";
"        return value";
"    ";
"    @property";
"    def paramStructType(self):";
"        # no union check";
"        value = self._read_primitive(8, ord(b'Q'))";
"        if 0 != 0:";
"            value = value ^ 0";
"        return value";
"    ";
"    @property";
"    def resultStructType(self):";
"        # no union check";
"        value = self._read_primitive(16, ord(b'Q'))";
"        if 0 != 0:";
"            value = value ^ 0";
"        return value";
"    ";
"    @property";
"    def annotations(self):";
"        # no union check";
"        return self._read_list(8, _Annotation_list_item_type)";
"    ";
"    def get_annotations(self):";
"        res = self.annotations";
"        if res is None:";
"            return _List.from_buffer(b'', 0, 0, 0, _Annotation_list_item_type)";
"        return res";
"    ";
"    def has_annotations(self):";
"        ptr = self._read_fast_ptr(8)";
"        return ptr != 0";
"    ";
"    @property";
"    def paramBrand(self):";
"        # no union check";
"        offset = 16";
"        p = self._read_fast_ptr(offset)";
"        if _ptr.kind(p) == _ptr.FAR:";
"            offset, p = self._read_far_ptr(offset)";
"        else:";
"            offset += self._ptrs_offset";
"        if p == 0:";
"            return None";
"        obj = Brand.__new__(Brand)";
"        obj._init_from_pointer(self._seg, offset, p)";
"        return obj";
"    ";
"    def get_paramBrand(self):";
"        res = self.paramBrand";
"        if res is None:";
"            return Brand.from_buffer(b'', 0, data_size=0, ptrs_size=0)";
"        return res";
"    ";
"    def has_paramBrand(self):";
"        ptr = self._read_fast_ptr(16)";
"        return ptr != 0";
"    ";
"    @property";
"    def resultBrand(self):";
"        # no union check";
"        offset = 24";
"        p = self._read_fast_ptr(offset)";
"        if _ptr.kind(p) == _ptr.FAR:";
"            offset, p = self._read_far_ptr(offset)";
"        else:";
"            offset += self._ptrs_offset";
"        if p == 0:";
"            return None";
"        obj = Brand.__new__(Brand)";
"        obj._init_from_pointer(self._seg, offset, p)";
"        return obj";
"    ";
"    def get_resultBrand(self):";
"        res = self.resultBrand";
"        if res is None:";
"            return Brand.from_buffer(b'', 0, data_size=0, ptrs_size=0)";
"        return res";
"    ";
"    def has_resultBrand(self):";
"        ptr = self._read_fast_ptr(24)";
"        return ptr != 0";
"    ";
"    @property";
"    def implicitParameters(self):";
"        # no union check";
"        return self._read_list(32, _Node_Parameter_list_item_type)";
"    ";
"    def get_implicitParameters(self):";
"        res = self.implicitParameters";
"        if res is None:";
"            return _List.from_buffer(b'', 0, 0, 0, _Node_Parameter_list_item_type)";
"        return res";
"    ";
"    def has_implicitParameters(self):";
"        ptr = self._read_fast_ptr(32)";
"        return ptr != 0";
"    ";
"    @staticmethod";
"    def __new(name=None, codeOrder=0, paramStructType=0, resultStructType=0, annotations=None, paramBrand=None, resultBrand=None, implicitParameters=None):";
"        builder = _SegmentBuilder()";
"        pos = builder.allocate(64)";
"        builder.alloc_text(pos + 24, name)";
"        builder.write_uint16(pos + 0, codeOrder)";
"        builder.write_uint64(pos + 8, paramStructType)";
"        builder.write_uint64(pos + 16, resultStructType)";
"        builder.copy_from_list(pos + 32, _Annotation_list_item_type, annotations)";
"        builder.copy_from_struct(pos + 40, Brand, paramBrand)";
"        builder.copy_from_struct(pos + 48, Brand, resultBrand)";
"        builder.copy_from_list(pos + 56, _Node_Parameter_list_item_type, implicitParameters)";
"        return builder.as_string()";
"    ";
"    def __init__(self, name=None, codeOrder=0, paramStructType=0, resultStructType=0, annotations=None, paramBrand=None, resultBrand=None, implicitParameters=None):";
"        _buf = Method.__new(name, codeOrder, paramStructType, resultStructType, annotations, paramBrand, resultBrand, implicitParameters)";
"        self._init_from_buffer(_buf, 0, 3, 5)";
"    "].

(** schema.py:1591-1647 *)
Definition t_Superclass_node : struct_node := mksn 1 1 None
  [FSlot "id" 0 None (TPrim FQ) 0 false 0;
   FSlot "brand" 1 None TStruct 0 false 0].
Definition t_Superclass_names : table := [("", "brand", ("Brand", "", "", "", ""))].
Definition t_Superclass : list string := [
"    @property";
"    def id(self):";
"        # no union check";
"        value = self._read_primitive(0, ord(b'Q'))";
"        if 0 != 0:";
"            value = value ^ 0";
"        return value";
"    ";
"    @property";
"    def brand(self):";
"        # no union check";
"        offset = 0";
"        p = self._read_fast_ptr(offset)";
"        if _ptr.kind(p) == _ptr.FAR:";
"            offset, p = self._read_far_ptr(offset)";
"        else:";
"            offset += self._ptrs_offset";
"        if p == 0:";
"            return None";
"        obj = Brand.__new__(Brand)";
"        obj._init_from_pointer(self._seg, offset, p)";
"        return obj";
"    ";
"    def get_brand(self):";
"        res = self.brand";
"        if res is None:";
"            return Brand.from_buffer(b'', 0, data_size=0, ptrs_size=0)";
"        return res";
"    ";
"    def has_brand(self):";
"        ptr = self._read_fast_ptr(0)";
"        return ptr != 0";
"    ";
"    @staticmethod";
"    def __new(id=0, brand=None):";
"        builder = _SegmentBuilder()";
"        pos = builder.allocate(16)";
"        builder.write_uint64(pos + 0, id)";
"        builder.copy_from_struct(pos + 8, Brand, brand)";
"        return builder.as_string()";
"    ";
"    def __init__(self, id=0, brand=None):";
"        _buf = Superclass.__new(id, brand)";
"        self._init_from_buffer(_buf, 0, 1, 1)";
"    "].

(** schema.py:1651-1686 *)
Definition t_Type_list_node : struct_node := mksn 3 1 None
  [FSlot "elementType" 0 None TStruct 0 false 0].
Definition t_Type_list_names : table := [("", "elementType", ("Type", "", "", "", ""))].
Definition t_Type_list : list string := [
"    @property";
"    def elementType(self):";
"        # no union check";
"        offset = 0";
"        p = self._read_fast_ptr(offset)";
"        if _ptr.kind(p) == _ptr.FAR:";
"            offset, p = self._read_far_ptr(offset)";
"        else:";
"            offset += self._ptrs_offset";
"        if p == 0:";
"            return None";
"        obj = Type.__new__(Type)";
"        obj._init_from_pointer(self._seg, offset, p)";
"        return obj";
"    ";
"    def get_elementType(self):";
"        res = self.elementType";
"        if res is None:";
"            return Type.from_buffer(b'', 0, data_size=0, ptrs_size=0)";
"        return res";
"    ";
"    def has_elementType(self):";
"        ptr = self._read_fast_ptr(0)";
"        return ptr != 0";
"    "].

(** schema.py:1690-1734 *)
Definition t_Type_enum_node : struct_node := mksn 3 1 None
  [FSlot "typeId" 0 None (TPrim FQ) 1 false 0;
   FSlot "brand" 1 None TStruct 0 false 0].
Definition t_Type_enum_names : table := [("", "brand", ("Brand", "", "", "", ""))].
Definition t_Type_enum : list string := [
"    @property";
"    def typeId(self):";
"        # no union check";
"        value = self._read_primitive(8, ord(b'Q'))";
"        if 0 != 0:";
"            value = value ^ 0";
"        return value";
"    ";
"    @property";
"    def brand(self):";
"        # no union check";
"        offset = 0";
"        p = self._read_fast_ptr(offset)";
"        if _ptr.kind(p) == _ptr.FAR:";
"            offset, p = self._read_far_ptr(offset)";
"        else:";
"            offset += self._ptrs_offset";
"        if p == 0:";
"            return None";
"        obj = Brand.__new__(Brand)";
"        obj._init_from_pointer(self._seg, offset, p)";
"        return obj";
"    ";
"    def get_brand(self):";
"        res = self.brand";
"        if res is None:";
"            return Brand.from_buffer(b'', 0, data_size=0, ptrs_size=0)";
"        return res";
"    ";
"    def has_brand(self):";
"        ptr = self._read_fast_ptr(0)";
"        return ptr != 0";
"    "].

(** schema.py:1738-1782 *)
Definition t_Type_struct_node : struct_node := mksn 3 1 None
  [FSlot "typeId" 0 None (TPrim FQ) 1 false 0;
   FSlot "brand" 1 None TStruct 0 false 0].
Definition t_Type_struct_names : table := [("", "brand", ("Brand", "", "", "", ""))].
Definition t_Type_struct : list string := [
"    @property";
"    def typeId(self):";
"        # no union check";
"        value = self._read_primitive(8, ord(b'Q'))";
"        if 0 != 0:";
"            value = value ^ 0";
"        return value";
"    ";
"    @property";
"    def brand(self):";
"        # no union check";
"        offset = 0";
"        p = self._read_fast_ptr(offset)";
"        if _ptr.kind(p) == _ptr.FAR:";
"            offset, p = self._read_far_ptr(offset)";
"        else:";
"            offset += self._ptrs_offset";
"        if p == 0:";
"            return None";
"        obj = Brand.__new__(Brand)";
"        obj._init_from_pointer(self._seg, offset, p)";
"        return obj";
"    ";
"    def get_brand(self):";
"        res = self.brand";
"        if res is None:";
"            return Brand.from_buffer(b'', 0, data_size=0, ptrs_size=0)";
"        return res";
"    ";
"    def has_brand(self):";
"        ptr = self._read_fast_ptr(0)";
"        return ptr != 0";
"    "].

(** schema.py:1786-1830 *)
Definition t_Type_interface_node : struct_node := mksn 3 1 None
  [FSlot "typeId" 0 None (TPrim FQ) 1 false 0;
   FSlot "brand" 1 None TStruct 0 false 0].
Definition t_Type_interface_names : table := [("", "brand", ("Brand", "", "", "", ""))].
Definition t_Type_interface : list string := [
"    @property";
"    def typeId(self):";
"        # no union check";
"        value = self._read_primitive(8, ord(b'Q'))";
"        if 0 != 0:";
"            value = value ^ 0";
"        return value";
"    ";
"    @property";
"    def brand(self):";
"        # no union check";
"        offset = 0";
"        p = self._read_fast_ptr(offset)";
"        if _ptr.kind(p) == _ptr.FAR:";
"            offset, p = self._read_far_ptr(offset)";
"        else:";
"            offset += self._ptrs_offset";
"        if p == 0:";
"            return None";
"        obj = Brand.__new__(Brand)";
"        obj._init_from_pointer(self._seg, offset, p)";
"        return obj";
"    ";
"    def get_brand(self):";
"        res = self.brand";
"        if res is None:";
"            return Brand.from_buffer(b'', 0, data_size=0, ptrs_size=0)";
"        return res";
"    ";
"    def has_brand(self):";
"        ptr = self._read_fast_ptr(0)";
"        return ptr != 0";
"    "].

(** schema.py:1834-1879 *)
Definition t_Type_anyPointer_unconstrained_node : struct_node := mksn 3 1 (Some 5)
  [FSlot "anyKind" 0 (Some 0) TVoid 0 false 0;
   FSlot "struct" 1 (Some 1) TVoid 0 false 0;
   FSlot "list" 2 (Some 2) TVoid 0 false 0;
   FSlot "capability" 3 (Some 3) TVoid 0 false 0].
Definition t_Type_anyPointer_unconstrained_names : table := [].
Definition t_Type_anyPointer_unconstrained : list string := [
"    def is_anyKind(self):";
"        return self._read_int16(10) == 0";
"    def is_struct(self):";
"        return self._read_int16(10) == 1";
"    def is_list(self):";
"        return self._read_int16(10) == 2";
"    def is_capability(self):";
"        return self._read_int16(10) == 3";
"    ";
"    @property";
"    def anyKind(self):";
"        self._ensure_union(0)";
"        return None";
"    ";
"    @property";
"    def struct(self):";
"        self._ensure_union(1)";
"        return None";
"    ";
"    @property";
"    def list(self):";
"        self._ensure_union(2)";
"        return None";
"    ";
"    @property";
"    def capability(self):";
"        self._ensure_union(3)";
"        return None";
"    "].

(** schema.py:1883-1910 *)
Definition t_Type_anyPointer_parameter_node : struct_node := mksn 3 1 None
  [FSlot "scopeId" 0 None (TPrim FQ) 2 false 0;
   FSlot "parameterIndex" 1 None (TPrim FH) 5 false 0].
Definition t_Type_anyPointer_parameter_names : table := [].
Definition t_Type_anyPointer_parameter : list string := [
"    @property";
"    def scopeId(self):";
"        # no union check";
"        value = self._read_primitive(16, ord(b'Q'))";
"        if 0 != 0:";
"            value = value ^ 0";
"        return value";
"    ";
"    @property";
"    def parameterIndex(self):";
"        # no union check";
"        value = self._read_primitive(10, ord(b'H'))";
"        if 0 != 0:";
"            value = value ^ 0";
"        return value";
"    "].

(** schema.py:1914-1932 *)
Definition t_Type_anyPointer_implicitMethodParameter_node : struct_node := mksn 3 1 None
  [FSlot "parameterIndex" 0 None (TPrim FH) 5 false 0].
Definition t_Type_anyPointer_implicitMethodParameter_names : table := [].
Definition t_Type_anyPointer_implicitMethodParameter : list string := [
"    @property";
"    def parameterIndex(self):";
"        # no union check";
"        value = self._read_primitive(10, ord(b'H'))";
"        if 0 != 0:";
"            value = value ^ 0";
"        return value";
"    "].

(** schema.py:1936-1994 *)
Definition t_Type_anyPointer_node : struct_node := mksn 3 1 (Some 4)
  [FGroup "unconstrained" 0 (Some 0) false (Some 5)
      [FSlot "anyKind" 0 (Some 0) TVoid 0 false 0;
       FSlot "struct" 1 (Some 1) TVoid 0 false 0;
       FSlot "list" 2 (Some 2) TVoid 0 false 0;
       FSlot "capability" 3 (Some 3) TVoid 0 false 0];
   FGroup "parameter" 1 (Some 1) false None
      [FSlot "scopeId" 0 None (TPrim FQ) 2 false 0;
       FSlot "parameterIndex" 1 None (TPrim FH) 5 false 0];
   FGroup "implicitMethodParameter" 2 (Some 2) false None
      [FSlot "parameterIndex" 0 None (TPrim FH) 5 false 0]].
Definition t_Type_anyPointer_names : table := [("", "unconstrained", ("", "", "Type_anyPointer_unconstrained", "", ""));
  ("", "parameter", ("", "", "Type_anyPointer_parameter", "", ""));
  ("", "implicitMethodParameter", ("", "", "Type_anyPointer_implicitMethodParameter", "", ""))].
Definition t_Type_anyPointer : list string := [
"    def is_unconstrained(self):";
"        return self._read_int16(8) == 0";
"    def is_parameter(self):";
"        return self._read_int16(8) == 1";
"    def is_implicitMethodParameter(self):";
"        return self._read_int16(8) == 2";
"    ";
"    @property";
"    def unconstrained(self):";
"        self._ensure_union(0)";
"        obj = Type_anyPointer_unconstrained.__new__(Type_anyPointer_unconstrained)";
"        _Struct._init_from_buffer(obj, self._seg, self._data_offset,";
"                                  self._data_size, self._ptrs_size)";
"        return obj";
"    ";
"    @staticmethod";
"    def Unconstrained(anyKind=_undefined, struct=_undefined, list=_undefined, capability=_undefined):";
"        return anyKind, struct, list, capability,";
"    ";
"    @property";
"    def parameter(self):";
"        self._ensure_union(1)";
"        obj = Type_anyPointer_parameter.__new__(Type_anyPointer_parameter)";
"        _Struct._init_from_buffer(obj, self._seg, self._data_offset,";
"                                  self._data_size, self._ptrs_size)";
"        return obj";
"    ";
"    @staticmethod";
"    def Parameter(scopeId=0, parameterIndex=0):";
"        return scopeId, parameterIndex,";
"    ";
"    @property";
"    def implicitMethodParameter(self):";
"        self._ensure_union(2)";
"        obj = Type_anyPointer_implicitMethodParameter.__new__(Type_anyPointer_implicitMethodParameter)";
"        _Struct._init_from_buffer(obj, self._seg, self._data_offset,";
"                                  self._data_size, self._ptrs_size)";
"        return obj";
"    ";
"    @staticmethod";
"    def Implicitmethodparameter(parameterIndex=0):";
"        return parameterIndex,";
"    "].

(** schema.py:1998-2402 *)
Definition t_Type_node : struct_node := mksn 3 1 (Some 0)
  [FSlot "void" 0 (Some 0) TVoid 0 false 0;
   FSlot "bool" 1 (Some 1) TVoid 0 false 0;
   FSlot "int8" 2 (Some 2) TVoid 0 false 0;
   FSlot "int16" 3 (Some 3) TVoid 0 false 0;
   FSlot "int32" 4 (Some 4) TVoid 0 false 0;
   FSlot "int64" 5 (Some 5) TVoid 0 false 0;
   FSlot "uint8" 6 (Some 6) TVoid 0 false 0;
   FSlot "uint16" 7 (Some 7) TVoid 0 false 0;
   FSlot "uint32" 8 (Some 8) TVoid 0 false 0;
   FSlot "uint64" 9 (Some 9) TVoid 0 false 0;
   FSlot "float32" 10 (Some 10) TVoid 0 false 0;
   FSlot "float64" 11 (Some 11) TVoid 0 false 0;
   FSlot "text" 12 (Some 12) TVoid 0 false 0;
   FSlot "data" 13 (Some 13) TVoid 0 false 0;
   FGroup "list" 14 (Some 14) false None
      [FSlot "elementType" 0 None TStruct 0 false 0];
   FGroup "enum" 15 (Some 15) false None
      [FSlot "typeId" 0 None (TPrim FQ) 1 false 0;
       FSlot "brand" 1 None TStruct 0 false 0];
   FGroup "struct" 16 (Some 16) false None
      [FSlot "typeId" 0 None (TPrim FQ) 1 false 0;
       FSlot "brand" 1 None TStruct 0 false 0];
   FGroup "interface" 17 (Some 17) false None
      [FSlot "typeId" 0 None (TPrim FQ) 1 false 0;
       FSlot "brand" 1 None TStruct 0 false 0];
   FGroup "anyPointer" 18 (Some 18) false (Some 4)
      [FGroup "unconstrained" 0 (Some 0) false (Some 5)
      [FSlot "anyKind" 0 (Some 0) TVoid 0 false 0;
       FSlot "struct" 1 (Some 1) TVoid 0 false 0;
       FSlot "list" 2 (Some 2) TVoid 0 false 0;
       FSlot "capability" 3 (Some 3) TVoid 0 false 0];
       FGroup "parameter" 1 (Some 1) false None
      [FSlot "scopeId" 0 None (TPrim FQ) 2 false 0;
       FSlot "parameterIndex" 1 None (TPrim FH) 5 false 0];
       FGroup "implicitMethodParameter" 2 (Some 2) false None
      [FSlot "parameterIndex" 0 None (TPrim FH) 5 false 0]]].
Definition t_Type_names : table := [("", "list", ("", "", "Type_list", "", ""));
  ("", "enum", ("", "", "Type_enum", "", ""));
  ("", "struct", ("", "", "Type_struct", "", ""));
  ("", "interface", ("", "", "Type_interface", "", ""));
  ("", "anyPointer", ("", "", "Type_anyPointer", "", ""));
  ("list", "elementType", ("Type", "", "", "", ""));
  ("enum", "brand", ("Brand", "", "", "", ""));
  ("struct", "brand", ("Brand", "", "", "", ""));
  ("interface", "brand", ("Brand", "", "", "", ""))].
Definition t_Type : list string := [
"    def is_void(self):";
"        return self._read_int16(0) == 0";
"    def is_bool(self):";
"        return self._read_int16(0) == 1";
"    def is_int8(self):";
"        return self._read_int16(0) == 2";
"    def is_int16(self):";
"        return self._read_int16(0) == 3";
"    def is_int32(self):";
"        return self._read_int16(0) == 4";
"    def is_int64(self):";
"        return self._read_int16(0) == 5";
"    def is_uint8(self):";
"        return self._read_int16(0) == 6";
"    def is_uint16(self):";
"        return self._read_int16(0) == 7";
"    def is_uint32(self):";
"        return self._read_int16(0) == 8";
"    def is_uint64(self):";
"        return self._read_int16(0) == 9";
"    def is_float32(self):";
"        return self._read_int16(0) == 10";
"    def is_float64(self):";
"        return self._read_int16(0) == 11";
"    def is_text(self):";
"        return self._read_int16(0) == 12";
"    def is_data(self):";
"        return self._read_int16(0) == 13";
"    def is_list(self):";
"        return self._read_int16(0) == 14";
"    def is_enum(self):";
"        return self._read_int16(0) == 15";
"    def is_struct(self):";
"        return self._read_int16(0) == 16";
"    def is_interface(self):";
"        return self._read_int16(0) == 17";
"    def is_anyPointer(self):";
"        return self._read_int16(0) == 18";
"    ";
"    @property";
"    def void(self):";
"        self._ensure_union(0)";
"        return None";
"    ";
"    @property";
"    def bool(self):";
"        self._ensure_union(1)";
"        return None";
"    ";
"    @property";
"    def int8(self):";
"        self._ensure_union(2)";
"        return None";
"    ";
"    @property";
"    def int16(self):";
"        self._ensure_union(3)";
"        return None";
"    ";
"    @property";
"    def int32(self):";
"        self._ensure_union(4)";
"        return None";
"    ";
"    @property";
"    def int64(self):";
"        self._ensure_union(5)";
"        return None";
"    ";
"    @property";
"    def uint8(self):";
"        self._ensure_union(6)";
"        return None";
"    ";
"    @property";
"    def uint16(self):";
"        self._ensure_union(7)";
"        return None";
"    ";
"    @property";
"    def uint32(self):";
"        self._ensure_union(8)";
"        return None";
"    ";
"    @property";
"    def uint64(self):";
"        self._ensure_union(9)";
"        return None";
"    ";
"    @property";
"    def float32(self):";
"        self._ensure_union(10)";
"        return None";
"    ";
"    @property";
"    def float64(self):";
"        self._ensure_union(11)";
"        return None";
"    ";
"    @property";
"    def text(self):";
"        self._ensure_union(12)";
"        return None";
"    ";
"    @property";
"    def data(self):";
"        self._ensure_union(13)";
"        return None";
"    ";
"    @property";
"    def list(self):";
"        self._ensure_union(14)";
"        obj = Type_list.__new__(Type_list)";
"        _Struct._init_from_buffer(obj, self._seg, self._data_offset,";
"                                  self._data_size, self._ptrs_size)";
"        return obj";
"    ";
"    @staticmethod";
"    def List(elementType=None):";
"        return elementType,";
"    ";
"    @property";
"    def enum(self):";
"        self._ensure_union(15)";
"        obj = Type_enum.__new__(Type_enum)";
"        _Struct._init_from_buffer(obj, self._seg, self._data_offset,";
"                                  self._data_size, self._ptrs_size)";
"        return obj";
"    ";
"    @staticmethod";
"    def Enum(typeId=0, brand=None):";
"        return typeId, brand,";
"    ";
"    @property";
"    def struct(self):";
"        self._ensure_union(16)";
"        obj = Type_struct.__new__(Type_struct)";
"        _Struct._init_from_buffer(obj, self._seg, self._data_offset,";
"                                  self._data_size, self._ptrs_size)";
"        return obj";
"    ";
"    @staticmethod";
"    def Struct(typeId=0, brand=None):";
"        return typeId, brand,";
"    ";
"    @property";
"    def interface(self):";
"        self._ensure_union(17)";
"        obj = Type_interface.__new__(Type_interface)";
"        _Struct._init_from_buffer(obj, self._seg, self._data_offset,";
"                                  self._data_size, self._ptrs_size)";
"        return obj";
"    ";
"    @staticmethod";
"    def Interface(typeId=0, brand=None):";
"        return typeId, brand,";
"    ";
"    @property";
"    def anyPointer(self):";
"        self._ensure_union(18)";
"        obj = Type_anyPointer.__new__(Type_anyPointer)";
"        _Struct._init_from_buffer(obj, self._seg, self._data_offset,";
"                                  self._data_size, self._ptrs_size)";
"        return obj";
"    ";
"    @staticmethod";
"    def Anypointer(unconstrained=_undefined, parameter=_undefined, implicitMethodParameter=_undefined):";
"        return unconstrained, parameter, implicitMethodParameter,";
"    ";
"    @staticmethod";
"    def __new(void=_undefined, bool=_undefined, int8=_undefined, int16=_undefined, int32=_undefined, int64=_undefined, uint8=_undefined, uint16=_undefined, uint32=_undefined, uint64=_undefined, float32=_undefined, float64=_undefined, text=_undefined, data=_undefined, list=_undefined, enum=_undefined, struct=_undefined, interface=_undefined, anyPointer=_undefined):";
"        builder = _SegmentBuilder()";
"        pos = builder.allocate(32)";
"        anonymous__curtag = None";
"        anyPointer__curtag = None";
"        anyPointer_unconstrained__curtag = None";
"        if void is not _undefined:";
"            anonymous__curtag = _check_tag(anonymous__curtag, 'void')";
"            builder.write_int16(0, 0)";
"        if bool is not _undefined:";
"            anonymous__curtag = _check_tag(anonymous__curtag, 'bool')";
"            builder.write_int16(0, 1)";
"        if int8 is not _undefined:";
"            anonymous__curtag = _check_tag(anonymous__curtag, 'int8')";
"            builder.write_int16(0, 2)";
"        if int16 is not _undefined:";
"            anonymous__curtag = _check_tag(anonymous__curtag, 'int16')";
"            builder.write_int16(0, 3)";
"        if int32 is not _undefined:";
"            anonymous__curtag = _check_tag(anonymous__curtag, 'int32')";
"            builder.write_int16(0, 4)";
"        if int64 is not _undefined:";
"            anonymous__curtag = _check_tag(anonymous__curtag, 'int64')";
"            builder.write_int16(0, 5)";
"        if uint8 is not _undefined:";
"            anonymous__curtag = _check_tag(anonymous__curtag, 'uint8')";
"            builder.write_int16(0, 6)";
"        if uint16 is not _undefined:";
"            anonymous__curtag = _check_tag(anonymous__curtag, 'uint16')";
"            builder.write_int16(0, 7)";
"        if uint32 is not _undefined:";
"            anonymous__curtag = _check_tag(anonymous__curtag, 'uint32')";
"            builder.write_int16(0, 8)";
"        if uint64 is not _undefined:";
"            anonymous__curtag = _check_tag(anonymous__curtag, 'uint64')";
"            builder.write_int16(0, 9)";
"        if float32 is not _undefined:";
"            anonymous__curtag = _check_tag(anonymous__curtag, 'float32')";
"            builder.write_int16(0, 10)";
"        if float64 is not _undefined:";
"            anonymous__curtag = _check_tag(anonymous__curtag, 'float64')";
"            builder.write_int16(0, 11)";
"        if text is not _undefined:";
"            anonymous__curtag = _check_tag(anonymous__curtag, 'text')";
"            builder.write_int16(0, 12)";
"        if data is not _undefined:";
"            anonymous__curtag = _check_tag(anonymous__curtag, 'data')";
"            builder.write_int16(0, 13)";
"        if list is not _undefined:";
"            anonymous__curtag = _check_tag(anonymous__curtag, 'list')";
"            builder.write_int16(0, 14)";
"            list_elementType, = list";
"            builder.copy_from_struct(pos + 24, Type, list_elementType)";
"        if enum is not _undefined:";
"            anonymous__curtag = _check_tag(anonymous__curtag, 'enum')";
"            builder.write_int16(0, 15)";
"            enum_typeId, enum_brand, = enum";
"            builder.write_uint64(pos + 8, enum_typeId)";
"            builder.copy_from_struct(pos + 24, Brand, enum_brand)";
"        if struct is not _undefined:";
"            anonymous__curtag = _check_tag(anonymous__curtag, 'struct')";
"            builder.write_int16(0, 16)";
"            struct_typeId, struct_brand, = struct";
"            builder.write_uint64(pos + 8, struct_typeId)";
"            builder.copy_from_struct(pos + 24, Brand, struct_brand)";
"        if interface is not _undefined:";
"            anonymous__curtag = _check_tag(anonymous__curtag, 'interface')";
"            builder.write_int16(0, 17)";
"            interface_typeId, interface_brand, = interface";
"            builder.write_uint64(pos + 8, interface_typeId)";
"            builder.copy_from_struct(pos + 24, Brand, interface_brand)";
"        if anyPointer is not _undefined:";
"            anonymous__curtag = _check_tag(anonymous__curtag, 'anyPointer')";
"            builder.write_int16(0, 18)";
"            anyPointer_unconstrained, anyPointer_parameter, anyPointer_implicitMethodParameter, = anyPointer";
"            if anyPointer_unconstrained is not _undefined:";
"                anyPointer__curtag = _check_tag(anyPointer__curtag, 'unconstrained')";
"                builder.write_int16(8, 0)";
"                anyPointer_unconstrained_anyKind, anyPointer_unconstrained_struct, anyPointer_unconstrained_list, anyPointer_unconstrained_capability, = anyPointer_unconstrained";
"                if anyPointer_unconstrained_anyKind is not _undefined:";
"                    anyPointer_unconstrained__curtag = _check_tag(anyPointer_unconstrained__curtag, 'anyKind')";
"                    builder.write_int16(10, 0)";
"                if anyPointer_unconstrained_struct is not _undefined:";
"                    anyPointer_unconstrained__curtag = _check_tag(anyPointer_unconstrained__curtag, 'struct')";
"                    builder.write_int16(10, 1)";
"                if anyPointer_unconstrained_list is not _undefined:";
"                    anyPointer_unconstrained__curtag = _check_tag(anyPointer_unconstrained__curtag, 'list')";
"                    builder.write_int16(10, 2)";
"                if anyPointer_unconstrained_capability is not _undefined:";
"                    anyPointer_unconstrained__curtag = _check_tag(anyPointer_unconstrained__curtag, 'capability')";
"                    builder.write_int16(10, 3)";
"            if anyPointer_parameter is not _undefined:";
"                anyPointer__curtag = _check_tag(anyPointer__curtag, 'parameter')";
"                builder.write_int16(8, 1)";
"                anyPointer_parameter_scopeId, anyPointer_parameter_parameterIndex, = anyPointer_parameter";
"                builder.write_uint64(pos + 16, anyPointer_parameter_scopeId)";
"                builder.write_uint16(pos + 10, anyPointer_parameter_parameterIndex)";
"            if anyPointer_implicitMethodParameter is not _undefined:";
"                anyPointer__curtag = _check_tag(anyPointer__curtag, 'implicitMethodParameter')";
"                builder.write_int16(8, 2)";
"                anyPointer_implicitMethodParameter_parameterIndex, = anyPointer_implicitMethodParameter";
"                builder.write_uint16(pos + 10, anyPointer_implicitMethodParameter_parameterIndex)";
"        return builder.as_string()";
"    ";
"    def __init__(self, void=_undefined, bool=_undefined, int8=_undefined, int16=_undefined, int32=_undefined, int64=_undefined, uint8=_undefined, uint16=_undefined, uint32=_undefined, uint64=_undefined, float32=_undefined, float64=_undefined, text=_undefined, data=_undefined, list=_undefined, enum=_undefined, struct=_undefined, interface=_undefined, anyPointer=_undefined):";
"        _buf = Type.__new(void, bool, int8, int16, int32, int64, uint8, uint16, uint32, uint64, float32, float64, text, data, list, enum, struct, interface, anyPointer)";
"        self._init_from_buffer(_buf, 0, 3, 1)";
"    ";
"    @classmethod";
"    def new_void(cls, void=None):";
"        buf = Type.__new(void=void, bool=_undefined, int8=_undefined, int16=_undefined, int32=_undefined, int64=_undefined, uint8=_undefined, uint16=_undefined, uint32=_undefined, uint64=_undefined, float32=_undefined, float64=_undefined, text=_undefined, data=_undefined, list=_undefined, enum=_undefined, struct=_undefined, interface=_undefined, anyPointer=_undefined)";
"        return cls.from_buffer(buf, 0, 3, 1)";
"    ";
"    @classmethod";
"    def new_bool(cls, bool=None):";
"        buf = Type.__new(bool=bool, void=_undefined, int8=_undefined, int16=_undefined, int32=_undefined, int64=_undefined, uint8=_undefined, uint16=_undefined, uint32=_undefined, uint64=_undefined, float32=_undefined, float64=_undefined, text=_undefined, data=_undefined, list=_undefined, enum=_undefined, struct=_undefined, interface=_undefined, anyPointer=_undefined)";
"        return cls.from_buffer(buf, 0, 3, 1)";
"    ";
"    @classmethod";
"    def new_int8(cls, int8=None):";
"        buf = Type.__new(int8=int8, void=_undefined, bool=_undefined, int16=_undefined, int32=_undefined, int64=_undefined, uint8=_undefined, uint16=_undefined, uint32=_undefined, uint64=_undefined, float32=_undefined, float64=_undefined, text=_undefined, data=_undefined, list=_undefined, enum=_undefined, struct=_undefined, interface=_undefined, anyPointer=_undefined)";
"        return cls.from_buffer(buf, 0, 3, 1)";
"    ";
"    @classmethod";
"    def new_int16(cls, int16=None):";
"        buf = Type.__new(int16=int16, void=_undefined, bool=_undefined, int8=_undefined, int32=_undefined, int64=_undefined, uint8=_undefined, uint16=_undefined, uint32=_undefined, uint64=_undefined, float32=_undefined, float64=_undefined, text=_undefined, data=_undefined, list=_undefined, enum=_undefined, struct=_undefined, interface=_undefined, anyPointer=_undefined)";
"        return cls.from_buffer(buf, 0, 3, 1)";
"    ";
"    @classmethod";
"    def new_int32(cls, int32=None):";
"        buf = Type.__new(int32=int32, void=_undefined, bool=_undefined, int8=_undefined, int16=_undefined, int64=_undefined, uint8=_undefined, uint16=_undefined, uint32=_undefined, uint64=_undefined, float32=_undefined, float64=_undefined, text=_undefined, data=_undefined, list=_undefined, enum=_undefined, struct=_undefined, interface=_undefined, anyPointer=_undefined)";
"        return cls.from_buffer(buf, 0, 3, 1)";
"    ";
"    @classmethod";
"    def new_int64(cls, int64=None):";
"        buf = Type.__new(int64=int64, void=_undefined, bool=_undefined, int8=_undefined, int16=_undefined, int32=_undefined, uint8=_undefined, uint16=_undefined, uint32=_undefined, uint64=_undefined, float32=_undefined, float64=_undefined, text=_undefined, data=_undefined, list=_undefined, enum=_undefined, struct=_undefined, interface=_undefined, anyPointer=_undefined)";
"        return cls.from_buffer(buf, 0, 3, 1)";
"    ";
"    @classmethod";
"    def new_uint8(cls, uint8=None):";
"        buf = Type.__new(uint8=uint8, void=_undefined, bool=_undefined, int8=_undefined, int16=_undefined, int32=_undefined, int64=_undefined, uint16=_undefined, uint32=_undefined, uint64=_undefined, float32=_undefined, float64=_undefined, text=_undefined, data=_undefined, list=_undefined, enum=_undefined, struct=_undefined, interface=_undefined, anyPointer=_undefined)";
"        return cls.from_buffer(buf, 0, 3, 1)";
"    ";
"    @classmethod";
"    def new_uint16(cls, uint16=None):";
"        buf = Type.__new(uint16=uint16, void=_undefined, bool=_undefined, int8=_undefined, int16=_undefined, int32=_undefined, int64=_undefined, uint8=_undefined, uint32=_undefined, uint64=_undefined, float32=_undefined, float64=_undefined, text=_undefined, data=_undefined, list=_undefined, enum=_undefined, struct=_undefined, interface=_undefined, anyPointer=_undefined)";
"        return cls.from_buffer(buf, 0, 3, 1)";
"    ";
"    @classmethod";
"    def new_uint32(cls, uint32=None):";
"        buf = Type.__new(uint32=uint32, void=_undefined, bool=_undefined, int8=_undefined, int16=_undefined, int32=_undefined, int64=_undefined, uint8=_undefined, uint16=_undefined, uint64=_undefined, float32=_undefined, float64=_undefined, text=_undefined, data=_undefined, list=_undefined, enum=_undefined, struct=_undefined, interface=_undefined, anyPointer=_undefined)";
"        return cls.from_buffer(buf, 0, 3, 1)";
"    ";
"    @classmethod";
"    def new_uint64(cls, uint64=None):";
"        buf = Type.__new(uint64=uint64, void=_undefined, bool=_undefined, int8=_undefined, int16=_undefined, int32=_undefined, int64=_undefined, uint8=_undefined, uint16=_undefined, uint32=_undefined, float32=_undefined, float64=_undefined, text=_undefined, data=_undefined, list=_undefined, enum=_undefined, struct=_undefined, interface=_undefined, anyPointer=_undefined)";
"        return cls.from_buffer(buf, 0, 3, 1)";
"    ";
"    @classmethod";
"    def new_float32(cls, float32=None):";
"        buf = Type.__new(float32=float32, void=_undefined, bool=_undefined, int8=_undefined, int16=_undefined, int32=_undefined, int64=_undefined, uint8=_undefined, uint16=_undefined, uint32=_undefined, uint64=_undefined, float64=_undefined, text=_undefined, data=_undefined, list=_undefined, enum=_undefined, struct=_undefined, interface=_undefined, anyPointer=_undefined)";
"        return cls.from_buffer(buf, 0, 3, 1)";
"    ";
"    @classmethod";
"    def new_float64(cls, float64=None):";
"        buf = Type.__new(float64=float64, void=_undefined, bool=_undefined, int8=_undefined, int16=_undefined, int32=_undefined, int64=_undefined, uint8=_undefined, uint16=_undefined, uint32=_undefined, uint64=_undefined, float32=_undefined, text=_undefined, data=_undefined, list=_undefined, enum=_undefined, struct=_undefined, interface=_undefined, anyPointer=_undefined)";
"        return cls.from_buffer(buf, 0, 3, 1)";
"    ";
"    @classmethod";
"    def new_text(cls, text=None):";
"        buf = Type.__new(text=text, void=_undefined, bool=_undefined, int8=_undefined, int16=_undefined, int32=_undefined, int64=_undefined, uint8=_undefined, uint16=_undefined, uint32=_undefined, uint64=_undefined, float32=_undefined, float64=_undefined, data=_undefined, list=_undefined, enum=_undefined, struct=_undefined, interface=_undefined, anyPointer=_undefined)";
"        return cls.from_buffer(buf, 0, 3, 1)";
"    ";
"    @classmethod";
"    def new_data(cls, data=None):";
"        buf = Type.__new(data=data, void=_undefined, bool=_undefined, int8=_undefined, int16=_undefined, int32=_undefined, int64=_undefined, uint8=_undefined, uint16=_undefined, uint32=_undefined, uint64=_undefined, float32=_undefined, float64=_undefined, text=_undefined, list=_undefined, enum=_undefined, struct=_undefined, interface=_undefined, anyPointer=_undefined)";
"        return cls.from_buffer(buf, 0, 3, 1)";
"    ";
"    @classmethod";
"    def new_list(cls, list=(None,)):";
"        buf = Type.__new(list=list, void=_undefined, bool=_undefined, int8=_undefined, int16=_undefined, int32=_undefined, int64=_undefined, uint8=_undefined, uint16=_undefined, uint32=_undefined, uint64=_undefined, float32=_undefined, float64=_undefined, text=_undefined, data=_undefined, enum=_undefined, struct=_undefined, interface=_undefined, anyPointer=_undefined)";
"        return cls.from_buffer(buf, 0, 3, 1)";
"    ";
"    @classmethod";
"    def new_enum(cls, enum=(0, None,)):";
"        buf = Type.__new(enum=enum, void=_undefined, bool=_undefined, int8=_undefined, int16=_undefined, int32=_undefined, int64=_undefined, uint8=_undefined, uint16=_undefined, uint32=_undefined, uint64=_undefined, float32=_undefined, float64=_undefined, text=_undefined, data=_undefined, list=_undefined, struct=_undefined, interface=_undefined, anyPointer=_undefined)";
"        return cls.from_buffer(buf, 0, 3, 1)";
"    ";
"    @classmethod";
"    def new_struct(cls, struct=(0, None,)):";
"        buf = Type.__new(struct=struct, void=_undefined, bool=_undefined, int8=_undefined, int16=_undefined, int32=_undefined, int64=_undefined, uint8=_undefined, uint16=_undefined, uint32=_undefined, uint64=_undefined, float32=_undefined, float64=_undefined, text=_undefined, data=_undefined, list=_undefined, enum=_undefined, interface=_undefined, anyPointer=_undefined)";
"        return cls.from_buffer(buf, 0, 3, 1)";
"    ";
"    @classmethod";
"    def new_interface(cls, interface=(0, None,)):";
"        buf = Type.__new(interface=interface, void=_undefined, bool=_undefined, int8=_undefined, int16=_undefined, int32=_undefined, int64=_undefined, uint8=_undefined, uint16=_undefined, uint32=_undefined, uint64=_undefined, float32=_undefined, float64=_undefined, text=_undefined, data=_undefined, list=_undefined, enum=_undefined, struct=_undefined, anyPointer=_undefined)";
"        return cls.from_buffer(buf, 0, 3, 1)";
"    ";
"    @classmethod";
"    def new_anyPointer(cls, anyPointer=(_undefined, _undefined, _undefined,)):";
"        buf = Type.__new(anyPointer=anyPointer, void=_undefined, bool=_undefined, int8=_undefined, int16=_undefined, int32=_undefined, int64=_undefined, uint8=_undefined, uint16=_undefined, uint32=_undefined, uint64=_undefined, float32=_undefined, float64=_undefined, text=_undefined, data=_undefined, list=_undefined, enum=_undefined, struct=_undefined, interface=_undefined)";
"        return cls.from_buffer(buf, 0, 3, 1)";
"    "].

(** schema.py:2406-2829 *)
Definition t_Value_node : struct_node := mksn 2 1 (Some 0)
  [FSlot "void" 0 (Some 0) TVoid 0 false 0;
   FSlot "bool" 1 (Some 1) TBool 16 false 0;
   FSlot "int8" 2 (Some 2) (TPrim Fb) 2 false 0;
   FSlot "int16" 3 (Some 3) (TPrim Fh) 1 false 0;
   FSlot "int32" 4 (Some 4) (TPrim Fi) 1 false 0;
   FSlot "int64" 5 (Some 5) (TPrim Fq) 1 false 0;
   FSlot "uint8" 6 (Some 6) (TPrim FB) 2 false 0;
   FSlot "uint16" 7 (Some 7) (TPrim FH) 1 false 0;
   FSlot "uint32" 8 (Some 8) (TPrim FI) 1 false 0;
   FSlot "uint64" 9 (Some 9) (TPrim FQ) 1 false 0;
   FSlot "float32" 10 (Some 10) TFloat32 1 false 0;
   FSlot "float64" 11 (Some 11) TFloat64 1 false 0;
   FSlot "text" 12 (Some 12) TText 0 false 0;
   FSlot "data" 13 (Some 13) TData 0 false 0;
   FSlot "list" 14 (Some 14) TAny 0 false 0;
   FSlot "enum" 15 (Some 15) (TPrim FH) 1 false 0;
   FSlot "struct" 16 (Some 16) TAny 0 false 0;
   FSlot "interface" 17 (Some 17) TVoid 0 false 0;
   FSlot "anyPointer" 18 (Some 18) TAny 0 false 0].
Definition t_Value_names : table := [("", "list", ("", "", "", "", "(name = ""list"", codeOrder = 14, discriminantValue = 14, slot = (offset = 0, type = (anyPointer = (unconstrained = (anyKind = void))), defaultValue = (anyPointer = ???), hadExplicitDefault = false), ordinal = (explicit = 14))"));
  ("", "struct", ("", "", "", "", "(name = ""struct"", codeOrder = 16, discriminantValue = 16, slot = (offset = 0, type = (anyPointer = (unconstrained = (anyKind = void))), defaultValue = (anyPointer = ???), hadExplicitDefault = false), ordinal = (explicit = 16))"));
  ("", "anyPointer", ("", "", "", "", "(name = ""anyPointer"", codeOrder = 18, discriminantValue = 18, slot = (offset = 0, type = (anyPointer = (unconstrained = (anyKind = void))), defaultValue = (anyPointer = ???), hadExplicitDefault = false), ordinal = (explicit = 18))"))].
Definition t_Value : list string := [
"    def is_void(self):";
"        return self._read_int16(0) == 0";
"    def is_bool(self):";
"        return self._read_int16(0) == 1";
"    def is_int8(self):";
"        return self._read_int16(0) == 2";
"    def is_int16(self):";
"        return self._read_int16(0) == 3";
"    def is_int32(self):";
"        return self._read_int16(0) == 4";
"    def is_int64(self):";
"        return self._read_int16(0) == 5";
"    def is_uint8(self):";
"        return self._read_int16(0) == 6";
"    def is_uint16(self):";
"        return self._read_int16(0) == 7";
"    def is_uint32(self):";
"        return self._read_int16(0) == 8";
"    def is_uint64(self):";
"        return self._read_int16(0) == 9";
"    def is_float32(self):";
"        return self._read_int16(0) == 10";
"    def is_float64(self):";
"        return self._read_int16(0) == 11";
"    def is_text(self):";
"        return self._read_int16(0) == 12";
"    def is_data(self):";
"        return self._read_int16(0) == 13";
"    def is_list(self):";
"        return self._read_int16(0) == 14";
"    def is_enum(self):";
"        return self._read_int16(0) == 15";
"    def is_struct(self):";
"        return self._read_int16(0) == 16";
"    def is_interface(self):";
"        return self._read_int16(0) == 17";
"    def is_anyPointer(self):";
"        return self._read_int16(0) == 18";
"    ";
"    @property";
"    def void(self):";
"        self._ensure_union(0)";
"        return None";
"    ";
"    @property";
"    def bool(self):";
"        self._ensure_union(1)";
"        value = self._read_bit(2, 1)";
"        if False != 0:";
"            value = value ^ False";
"        return value";
"    ";
"    @property";
"    def int8(self):";
"        self._ensure_union(2)";
"        value = self._read_primitive(2, ord(b'b'))";
"        if 0 != 0:";
"            value = value ^ 0";
"        return value";
"    ";
"    @property";
"    def int16(self):";
"        self._ensure_union(3)";
"        value = self._read_primitive(2, ord(b'h'))";
"        if 0 != 0:";
"            value = value ^ 0";
"        return value";
"    ";
"    @property";
"    def int32(self):";
"        self._ensure_union(4)";
"        value = self._read_primitive(4, ord(b'i'))";
"        if 0 != 0:";
"            value = value ^ 0";
"        return value";
"    ";
"    @property";
"    def int64(self):";
"        self._ensure_union(5)";
"        value = self._read_primitive(8, ord(b'q'))";
"        if 0 != 0:";
"            value = value ^ 0";
"        return value";
"    ";
"    @property";
"    def uint8(self):";
"        self._ensure_union(6)";
"        value = self._read_primitive(2, ord(b'B'))";
"        if 0 != 0:";
"            value = value ^ 0";
"        return value";
"    ";
"    @property";
"    def uint16(self):";
"        self._ensure_union(7)";
"        value = self._read_primitive(2, ord(b'H'))";
"        if 0 != 0:";
"            value = value ^ 0";
"        return value";
"    ";
"    @property";
"    def uint32(self):";
"        self._ensure_union(8)";
"        value = self._read_primitive(4, ord(b'I'))";
"        if 0 != 0:";
"            value = value ^ 0";
"        return value";
"    ";
"    @property";
"    def uint64(self):";
"        self._ensure_union(9)";
"        value = self._read_primitive(8, ord(b'Q'))";
"        if 0 != 0:";
"            value = value ^ 0";
"        return value";
"    ";
"    @property";
"    def float32(self):";
"        self._ensure_union(10)";
"        value = self._read_primitive(4, ord(b'f'))";
"        if 0.0 != 0:";
"            value = value ^ 0.0";
"        return value";
"    ";
"    @property";
"    def float64(self):";
"        self._ensure_union(11)";
"        value = self._read_primitive(8, ord(b'd'))";
"        if 0.0 != 0:";
"            value = value ^ 0.0";
"        return value";
"    ";
"    @property";
"    def text(self):";
"        self._ensure_union(12)";
"        return self._read_text_bytes(0)";
"    ";
"    def get_text(self):";
"        return self._read_text_bytes(0, default_=b"""")";
"    ";
"    def has_text(self):";
"        ptr = self._read_fast_ptr(0)";
"        return ptr != 0";
"    ";
"    @property";
"    def data(self):";
"        self._ensure_union(13)";
"        return self._read_data(0)";
"    ";
"    def get_data(self):";
"        return self._read_data(0, default_=b"""")";
"    ";
"    def has_data(self):";
"        ptr = self._read_fast_ptr(0)";
"        return ptr != 0";
"    ";
"    @property";
"    def list(self):";
"        self._ensure_union(14)";
"        if not self.has_list():";
"            return None";
"        return _AnyPointer(self, 0)";
"    ";
"    def has_list(self):";
"        ptr = self._read_fast_ptr(0)";
"        return ptr != 0";
"    ";
"    @property";
"    def enum(self):";
"        self._ensure_union(15)";
"        value = self._read_primitive(2, ord(b'H'))";
"        if 0 != 0:";
"            value = value ^ 0";
"        return value";
"    ";
"    @property";
"    def struct(self):";
"        self._ensure_union(16)";
"        if not self.has_struct():";
"            return None";
"        return _AnyPointer(self, 0)";
"    ";
"    def has_struct(self):";
"        ptr = self._read_fast_ptr(0)";
"        return ptr != 0";
"    ";
"    @property";
"    def interface(self):";
"        self._ensure_union(17)";
"        return None";
"    ";
"    @property";
"    def anyPointer(self):";
"        self._ensure_union(18)";
"        if not self.has_anyPointer():";
"            return None";
"        return _AnyPointer(self, 0)";
"    ";
"    def has_anyPointer(self):";
"        ptr = self._read_fast_ptr(0)";
"        return ptr != 0";
"    ";
"    @staticmethod";
"    def __new(void=_undefined, bool=_undefined, int8=_undefined, int16=_undefined, int32=_undefined, int64=_undefined, uint8=_undefined, uint16=_undefined, uint32=_undefined, uint64=_undefined, float32=_undefined, float64=_undefined, text=_undefined, data=_undefined, list=_undefined, enum=_undefined, struct=_undefined, interface=_undefined, anyPointer=_undefined):";
"        builder = _SegmentBuilder()";
"        pos = builder.allocate(24)";
"        anonymous__curtag = None";
"        if void is not _undefined:";
"            anonymous__curtag = _check_tag(anonymous__curtag, 'void')";
"            builder.write_int16(0, 0)";
"        if bool is not _undefined:";
"            anonymous__curtag = _check_tag(anonymous__curtag, 'bool')";
"            builder.write_int16(0, 1)";
"            builder.write_bool(2, 0, bool)";
"        if int8 is not _undefined:";
"            anonymous__curtag = _check_tag(anonymous__curtag, 'int8')";
"            builder.write_int16(0, 2)";
"            builder.write_int8(pos + 2, int8)";
"        if int16 is not _undefined:";
"            anonymous__curtag = _check_tag(anonymous__curtag, 'int16')";
"            builder.write_int16(0, 3)";
"            builder.write_int16(pos + 2, int16)";
"        if int32 is not _undefined:";
"            anonymous__curtag = _check_tag(anonymous__curtag, 'int32')";
"            builder.write_int16(0, 4)";
"            builder.write_int32(pos + 4, int32)";
"        if int64 is not _undefined:";
"            anonymous__curtag = _check_tag(anonymous__curtag, 'int64')";
"            builder.write_int16(0, 5)";
"            builder.write_int64(pos + 8, int64)";
"        if uint8 is not _undefined:";
"            anonymous__curtag = _check_tag(anonymous__curtag, 'uint8')";
"            builder.write_int16(0, 6)";
"            builder.write_uint8(pos + 2, uint8)";
"        if uint16 is not _undefined:";
"            anonymous__curtag = _check_tag(anonymous__curtag, 'uint16')";
"            builder.write_int16(0, 7)";
"            builder.write_uint16(pos + 2, uint16)";
"        if uint32 is not _undefined:";
"            anonymous__curtag = _check_tag(anonymous__curtag, 'uint32')";
"            builder.write_int16(0, 8)";
"            builder.write_uint32(pos + 4, uint32)";
"        if uint64 is not _undefined:";
"            anonymous__curtag = _check_tag(anonymous__curtag, 'uint64')";
"            builder.write_int16(0, 9)";
"            builder.write_uint64(pos + 8, uint64)";
"        if float32 is not _undefined:";
"            anonymous__curtag = _check_tag(anonymous__curtag, 'float32')";
"            builder.write_int16(0, 10)";
"            builder.write_float32(pos + 4, float32)";
"        if float64 is not _undefined:";
"            anonymous__curtag = _check_tag(anonymous__curtag, 'float64')";
"            builder.write_int16(0, 11)";
"            builder.write_float64(pos + 8, float64)";
"        if text is not _undefined:";
"            anonymous__curtag = _check_tag(anonymous__curtag, 'text')";
"            builder.write_int16(0, 12)";
"            builder.alloc_text(pos + 16, text)";
"        if data is not _undefined:";
"            anonymous__curtag = _check_tag(anonymous__curtag, 'data')";
"            builder.write_int16(0, 13)";
"            builder.alloc_data(pos + 16, data)";
"        if list is not _undefined:";
"            anonymous__curtag = _check_tag(anonymous__curtag, 'list')";
"            builder.write_int16(0, 14)";
"            raise NotImplementedError('Unsupported field type: (name = ""list"", codeOrder = 14, discriminantValue = 14, slot = (offset = 0, type = (anyPointer = (unconstrained = (anyKind = void))), defaultValue = (anyPointer = ???), hadExplicitDefault = false), ordinal = (explicit = 14))')";
"        if enum is not _undefined:";
"            anonymous__curtag = _check_tag(anonymous__curtag, 'enum')";
"            builder.write_int16(0, 15)";
"            builder.write_uint16(pos + 2, enum)";
"        if struct is not _undefined:";
"            anonymous__curtag = _check_tag(anonymous__curtag, 'struct')";
"            builder.write_int16(0, 16)";
"            raise NotImplementedError('Unsupported field type: (name = ""struct"", codeOrder = 16, discriminantValue = 16, slot = (offset = 0, type = (anyPointer = (unconstrained = (anyKind = void))), defaultValue = (anyPointer = ???), hadExplicitDefault = false), ordinal = (explicit = 16))')";
"        if interface is not _undefined:";
"            anonymous__curtag = _check_tag(anonymous__curtag, 'interface')";
"            builder.write_int16(0, 17)";
"        if anyPointer is not _undefined:";
"            anonymous__curtag = _check_tag(anonymous__curtag, 'anyPointer')";
"            builder.write_int16(0, 18)";
"            raise NotImplementedError('Unsupported field type: (name = ""anyPointer"", codeOrder = 18, discriminantValue = 18, slot = (offset = 0, type = (anyPointer = (unconstrained = (anyKind = void))), defaultValue = (anyPointer = ???), hadExplicitDefault = false), ordinal = (explicit = 18))')";
"        return builder.as_string()";
"    ";
"    def __init__(self, void=_undefined, bool=_undefined, int8=_undefined, int16=_undefined, int32=_undefined, int64=_undefined, uint8=_undefined, uint16=_undefined, uint32=_undefined, uint64=_undefined, float32=_undefined, float64=_undefined, text=_undefined, data=_undefined, list=_undefined, enum=_undefined, struct=_undefined, interface=_undefined, anyPointer=_undefined):";
"        _buf = Value.__new(void, bool, int8, int16, int32, int64, uint8, uint16, uint32, uint64, float32, float64, text, data, list, enum, struct, interface, anyPointer)";
"        self._init_from_buffer(_buf, 0, 2, 1)";
"    ";
"    @classmethod";
"    def new_void(cls, void=None):";
"        buf = Value.__new(void=void, bool=_undefined, int8=_undefined, int16=_undefined, int32=_undefined, int64=_undefined, uint8=_undefined, uint16=_undefined, uint32=_undefined, uint64=_undefined, float32=_undefined, float64=_undefined, text=_undefined, data=_undefined, list=_undefined, enum=_undefined, struct=_undefined, interface=_undefined, anyPointer=_undefined)";
"        return cls.from_buffer(buf, 0, 2, 1)";
"    ";
"    @classmethod";
"    def new_bool(cls, bool=False):";
"        buf = Value.__new(bool=bool, void=_undefined, int8=_undefined, int16=_undefined, int32=_undefined, int64=_undefined, uint8=_undefined, uint16=_undefined, uint32=_undefined, uint64=_undefined, float32=_undefined, float64=_undefined, text=_undefined, data=_undefined, list=_undefined, enum=_undefined, struct=_undefined, interface=_undefined, anyPointer=_undefined)";
"        return cls.from_buffer(buf, 0, 2, 1)";
"    ";
"    @classmethod";
"    def new_int8(cls, int8=0):";
"        buf = Value.__new(int8=int8, void=_undefined, bool=_undefined, int16=_undefined, int32=_undefined, int64=_undefined, uint8=_undefined, uint16=_undefined, uint32=_undefined, uint64=_undefined, float32=_undefined, float64=_undefined, text=_undefined, data=_undefined, list=_undefined, enum=_undefined, struct=_undefined, interface=_undefined, anyPointer=_undefined)";
"        return cls.from_buffer(buf, 0, 2, 1)";
"    ";
"    @classmethod";
"    def new_int16(cls, int16=0):";
"        buf = Value.__new(int16=int16, void=_undefined, bool=_undefined, int8=_undefined, int32=_undefined, int64=_undefined, uint8=_undefined, uint16=_undefined, uint32=_undefined, uint64=_undefined, float32=_undefined, float64=_undefined, text=_undefined, data=_undefined, list=_undefined, enum=_undefined, struct=_undefined, interface=_undefined, anyPointer=_undefined)";
"        return cls.from_buffer(buf, 0, 2, 1)";
"    ";
"    @classmethod";
"    def new_int32(cls, int32=0):";
"        buf = Value.__new(int32=int32, void=_undefined, bool=_undefined, int8=_undefined, int16=_undefined, int64=_undefined, uint8=_undefined, uint16=_undefined, uint32=_undefined, uint64=_undefined, float32=_undefined, float64=_undefined, text=_undefined, data=_undefined, list=_undefined, enum=_undefined, struct=_undefined, interface=_undefined, anyPointer=_undefined)";
"        return cls.from_buffer(buf, 0, 2, 1)";
"    ";
"    @classmethod";
"    def new_int64(cls, int64=0):";
"        buf = Value.__new(int64=int64, void=_undefined, bool=_undefined, int8=_undefined, int16=_undefined, int32=_undefined, uint8=_undefined, uint16=_undefined, uint32=_undefined, uint64=_undefined, float32=_undefined, float64=_undefined, text=_undefined, data=_undefined, list=_undefined, enum=_undefined, struct=_undefined, interface=_undefined, anyPointer=_undefined)";
"        return cls.from_buffer(buf, 0, 2, 1)";
"    ";
"    @classmethod";
"    def new_uint8(cls, uint8=0):";
"        buf = Value.__new(uint8=uint8, void=_undefined, bool=_undefined, int8=_undefined, int16=_undefined, int32=_undefined, int64=_undefined, uint16=_undefined, uint32=_undefined, uint64=_undefined, float32=_undefined, float64=_undefined, text=_undefined, data=_undefined, list=_undefined, enum=_undefined, struct=_undefined, interface=_undefined, anyPointer=_undefined)";
"        return cls.from_buffer(buf, 0, 2, 1)";
"    ";
"    @classmethod";
"    def new_uint16(cls, uint16=0):";
"        buf = Value.__new(uint16=uint16, void=_undefined, bool=_undefined, int8=_undefined, int16=_undefined, int32=_undefined, int64=_undefined, uint8=_undefined, uint32=_undefined, uint64=_undefined, float32=_undefined, float64=_undefined, text=_undefined, data=_undefined, list=_undefined, enum=_undefined, struct=_undefined, interface=_undefined, anyPointer=_undefined)";
"        return cls.from_buffer(buf, 0, 2, 1)";
"    ";
"    @classmethod";
"    def new_uint32(cls, uint32=0):";
"        buf = Value.__new(uint32=uint32, void=_undefined, bool=_undefined, int8=_undefined, int16=_undefined, int32=_undefined, int64=_undefined, uint8=_undefined, uint16=_undefined, uint64=_undefined, float32=_undefined, float64=_undefined, text=_undefined, data=_undefined, list=_undefined, enum=_undefined, struct=_undefined, interface=_undefined, anyPointer=_undefined)";
"        return cls.from_buffer(buf, 0, 2, 1)";
"    ";
"    @classmethod";
"    def new_uint64(cls, uint64=0):";
"        buf = Value.__new(uint64=uint64, void=_undefined, bool=_undefined, int8=_undefined, int16=_undefined, int32=_undefined, int64=_undefined, uint8=_undefined, uint16=_undefined, uint32=_undefined, float32=_undefined, float64=_undefined, text=_undefined, data=_undefined, list=_undefined, enum=_undefined, struct=_undefined, interface=_undefined, anyPointer=_undefined)";
"        return cls.from_buffer(buf, 0, 2, 1)";
"    ";
"    @classmethod";
"    def new_float32(cls, float32=0.0):";
"        buf = Value.__new(float32=float32, void=_undefined, bool=_undefined, int8=_undefined, int16=_undefined, int32=_undefined, int64=_undefined, uint8=_undefined, uint16=_undefined, uint32=_undefined, uint64=_undefined, float64=_undefined, text=_undefined, data=_undefined, list=_undefined, enum=_undefined, struct=_undefined, interface=_undefined, anyPointer=_undefined)";
"        return cls.from_buffer(buf, 0, 2, 1)";
"    ";
"    @classmethod";
"    def new_float64(cls, float64=0.0):";
"        buf = Value.__new(float64=float64, void=_undefined, bool=_undefined, int8=_undefined, int16=_undefined, int32=_undefined, int64=_undefined, uint8=_undefined, uint16=_undefined, uint32=_undefined, uint64=_undefined, float32=_undefined, text=_undefined, data=_undefined, list=_undefined, enum=_undefined, struct=_undefined, interface=_undefined, anyPointer=_undefined)";
"        return cls.from_buffer(buf, 0, 2, 1)";
"    ";
"    @classmethod";
"    def new_text(cls, text=None):";
"        buf = Value.__new(text=text, void=_undefined, bool=_undefined, int8=_undefined, int16=_undefined, int32=_undefined, int64=_undefined, uint8=_undefined, uint16=_undefined, uint32=_undefined, uint64=_undefined, float32=_undefined, float64=_undefined, data=_undefined, list=_undefined, enum=_undefined, struct=_undefined, interface=_undefined, anyPointer=_undefined)";
"        return cls.from_buffer(buf, 0, 2, 1)";
"    ";
"    @classmethod";
"    def new_data(cls, data=None):";
"        buf = Value.__new(data=data, void=_undefined, bool=_undefined, int8=_undefined, int16=_undefined, int32=_undefined, int64=_undefined, uint8=_undefined, uint16=_undefined, uint32=_undefined, uint64=_undefined, float32=_undefined, float64=_undefined, text=_undefined, list=_undefined, enum=_undefined, struct=_undefined, interface=_undefined, anyPointer=_undefined)";
"        return cls.from_buffer(buf, 0, 2, 1)";
"    ";
"    @classmethod";
"    def new_list(cls, list=None):";
"        buf = Value.__new(list=list, void=_undefined, bool=_undefined, int8=_undefined, int16=_undefined, int32=_undefined, int64=_undefined, uint8=_undefined, uint16=_undefined, uint32=_undefined, uint64=_undefined, float32=_undefined, float64=_undefined, text=_undefined, data=_undefined, enum=_undefined, struct=_undefined, interface=_undefined, anyPointer=_undefined)";
"        return cls.from_buffer(buf, 0, 2, 1)";
"    ";
"    @classmethod";
"    def new_enum(cls, enum=0):";
"        buf = Value.__new(enum=enum, void=_undefined, bool=_undefined, int8=_undefined, int16=_undefined, int32=_undefined, int64=_undefined, uint8=_undefined, uint16=_undefined, uint32=_undefined, uint64=_undefined, float32=_undefined, float64=_undefined, text=_undefined, data=_undefined, list=_undefined, struct=_undefined, interface=_undefined, anyPointer=_undefined)";
"        return cls.from_buffer(buf, 0, 2, 1)";
"    ";
"    @classmethod";
"    def new_struct(cls, struct=None):";
"        buf = Value.__new(struct=struct, void=_undefined, bool=_undefined, int8=_undefined, int16=_undefined, int32=_undefined, int64=_undefined, uint8=_undefined, uint16=_undefined, uint32=_undefined, uint64=_undefined, float32=_undefined, float64=_undefined, text=_undefined, data=_undefined, list=_undefined, enum=_undefined, interface=_undefined, anyPointer=_undefined)";
"        return cls.from_buffer(buf, 0, 2, 1)";
"    ";
"    @classmethod";
"    def new_interface(cls, interface=None):";
"        buf = Value.__new(interface=interface, void=_undefined, bool=_undefined, int8=_undefined, int16=_undefined, int32=_undefined, int64=_undefined, uint8=_undefined, uint16=_undefined, uint32=_undefined, uint64=_undefined, float32=_undefined, float64=_undefined, text=_undefined, data=_undefined, list=_undefined, enum=_undefined, struct=_undefined, anyPointer=_undefined)";
"        return cls.from_buffer(buf, 0, 2, 1)";
"    ";
"    @classmethod";
"    def new_anyPointer(cls, anyPointer=None):";
"        buf = Value.__new(anyPointer=anyPointer, void=_undefined, bool=_undefined, int8=_undefined, int16=_undefined, int32=_undefined, int64=_undefined, uint8=_undefined, uint16=_undefined, uint32=_undefined, uint64=_undefined, float32=_undefined, float64=_undefined, text=_undefined, data=_undefined, list=_undefined, enum=_undefined, struct=_undefined, interface=_undefined)";
"        return cls.from_buffer(buf, 0, 2, 1)";
"    "].

(** schema.py:2833-2916 *)
Definition t_Annotation_node : struct_node := mksn 1 2 None
  [FSlot "id" 0 None (TPrim FQ) 0 false 0;
   FSlot "value" 1 None TStruct 0 false 0;
   FSlot "brand" 2 None TStruct 1 false 0].
Definition t_Annotation_names : table := [("", "value", ("Value", "", "", "", ""));
  ("", "brand", ("Brand", "", "", "", ""))].
Definition t_Annotation : list string := [
"    @property";
"    def id(self):";
"        # no union check";
"        value = self._read_primitive(0, ord(b'Q'))";
"        if 0 != 0:";
"            value = value ^ 0";
"        return value";
"    ";
"    @property";
"    def value(self):";
"        # no union check";
"        offset = 0";
"        p = self._read_fast_ptr(offset)";
"        if _ptr.kind(p) == _ptr.FAR:";
"            offset, p = self._read_far_ptr(offset)";
"        else:";
"            offset += self._ptrs_offset";
"        if p == 0:";
"            return None";
"        obj = Value.__new__(Value)";
"        obj._init_from_pointer(self._seg, offset, p)";
"        return obj";
"    ";
"    def get_value(self):";
"        res = self.value";
"        if res is None:";
"            return Value.from_buffer(b'', 0, data_size=0, ptrs_size=0)";
"        return res";
"    ";
"    def has_value(self):";
"        ptr = self._read_fast_ptr(0)";
"        return ptr != 0";
"    ";
"    @property";
"    def brand(self):";
"        # no union check";
"        offset = 8";
"        p = self._read_fast_ptr(offset)";
"        if _ptr.kind(p) == _ptr.FAR:";
"            offset, p = self._read_far_ptr(offset)";
"        else:";
"            offset += self._ptrs_offset";
"        if p == 0:";
"            return None";
"        obj = Brand.__new__(Brand)";
"        obj._init_from_pointer(self._seg, offset, p)";
"        return obj";
"    ";
"    def get_brand(self):";
"        res = self.brand";
"        if res is None:";
"            return Brand.from_buffer(b'', 0, data_size=0, ptrs_size=0)";
"        return res";
"    ";
"    def has_brand(self):";
"        ptr = self._read_fast_ptr(8)";
"        return ptr != 0";
"    ";
"    @staticmethod";
"    def __new(id=0, value=None, brand=None):";
"        builder = _SegmentBuilder()";
"        pos = builder.allocate(24)";
"        builder.write_uint64(pos + 0, id)";
"        builder.copy_from_struct(pos + 8, Value, value)";
"        builder.copy_from_struct(pos + 16, Brand, brand)";
"        return builder.as_string()";
"    ";
"    def __init__(self, id=0, value=None, brand=None):";
"        _buf = Annotation.__new(id, value, brand)";
"        self._init_from_buffer(_buf, 0, 1, 2)";
"    "].

(** schema.py:2920-2999 *)
Definition t_Brand_Scope_node : struct_node := mksn 2 1 (Some 4)
  [FSlot "scopeId" 0 None (TPrim FQ) 0 false 0;
   FSlot "bind" 1 (Some 0) (TList (ITStruct 1 1)) 0 false 0;
   FSlot "inherit" 2 (Some 1) TVoid 0 false 0].
Definition t_Brand_Scope_names : table := [("", "bind", ("", "", "", "_Brand_Binding_list_item_type", ""))].
Definition t_Brand_Scope : list string := [
"    def is_bind(self):";
"        return self._read_int16(8) == 0";
"    def is_inherit(self):";
"        return self._read_int16(8) == 1";
"    ";
"    @property";
"    def scopeId(self):";
"        # no union check";
"        value = self._read_primitive(0, ord(b'Q'))";
"        if 0 != 0:";
"            value = value ^ 0";
"        return value";
"    ";
"    @property";
"    def bind(self):";
"        self._ensure_union(0)";
"        return self._read_list(0, _Brand_Binding_list_item_type)";
"    ";
"    def get_bind(self):";
"        res = self.bind";
"        if res is None:";
"            return _List.from_buffer(b'', 0, 0, 0, _Brand_Binding_list_item_type)";
"        return res";
"    ";
"    def has_bind(self):";
"        ptr = self._read_fast_ptr(0)";
"        return ptr != 0";
"    ";
"    @property";
"    def inherit(self):";
"        self._ensure_union(1)";
"        return None";
"    ";
"    @staticmethod";
"    def __new(scopeId=0, bind=_undefined, inherit=_undefined):";
"        builder = _SegmentBuilder()";
"        pos = builder.allocate(24)";
"        anonymous__curtag = None";
"        builder.write_uint64(pos + 0, scopeId)";
"        if bind is not _undefined:";
"            anonymous__curtag = _check_tag(anonymous__curtag, 'bind')";
"            builder.write_int16(8, 0)";
"            builder.copy_from_list(pos + 16, _Brand_Binding_list_item_type, bind)";
"        if inherit is not _undefined:";
"            anonymous__curtag = _check_tag(anonymous__curtag, 'inherit')";
"            builder.write_int16(8, 1)";
"        return builder.as_string()";
"    ";
"    def __init__(self, scopeId=0, bind=_undefined, inherit=_undefined):";
"        _buf = Brand_Scope.__new(scopeId, bind, inherit)";
"        self._init_from_buffer(_buf, 0, 2, 1)";
"    ";
"    @classmethod";
"    def new_bind(cls, scopeId=0, bind=None):";
"        buf = Brand_Scope.__new(scopeId=scopeId, bind=bind, inherit=_undefined)";
"        return cls.from_buffer(buf, 0, 2, 1)";
"    ";
"    @classmethod";
"    def new_inherit(cls, scopeId=0, inherit=None):";
"        buf = Brand_Scope.__new(scopeId=scopeId, inherit=inherit, bind=_undefined)";
"        return cls.from_buffer(buf, 0, 2, 1)";
"    "].

(** schema.py:3003-3082 *)
Definition t_Brand_Binding_node : struct_node := mksn 1 1 (Some 0)
  [FSlot "unbound" 0 (Some 0) TVoid 0 false 0;
   FSlot "type" 1 (Some 1) TStruct 0 false 0].
Definition t_Brand_Binding_names : table := [("", "type", ("Type", "", "", "", ""))].
Definition t_Brand_Binding : list string := [
"    def is_unbound(self):";
"        return self._read_int16(0) == 0";
"    def is_type(self):";
"        return self._read_int16(0) == 1";
"    ";
"    @property";
"    def unbound(self):";
"        self._ensure_union(0)";
"        return None";
"    ";
"    @property";
"    def type(self):";
"        self._ensure_union(1)";
"        offset = 0";
"        p = self._read_fast_ptr(offset)";
"        if _ptr.kind(p) == _ptr.FAR:";
"            offset, p = self._read_far_ptr(offset)";
"        else:";
"            offset += self._ptrs_offset";
"        if p == 0:";
"            return None";
"        obj = Type.__new__(Type)";
"        obj._init_from_pointer(self._seg, offset, p)";
"        return obj";
"    ";
"    def get_type(self):";
"        res = self.type";
"        if res is None:";
"            return Type.from_buffer(b'', 0, data_size=0, ptrs_size=0)";
"        return res";
"    ";
"    def has_type(self):";
"        ptr = self._read_fast_ptr(0)";
"        return ptr != 0";
"    ";
"    @staticmethod";
"    def __new(unbound=_undefined, type=_undefined):";
"        builder = _SegmentBuilder()";
"        pos = builder.allocate(16)";
"        anonymous__curtag = None";
"        if unbound is not _undefined:";
"            anonymous__curtag = _check_tag(anonymous__curtag, 'unbound')";
"            builder.write_int16(0, 0)";
"        if type is not _undefined:";
"            anonymous__curtag = _check_tag(anonymous__curtag, 'type')";
"            builder.write_int16(0, 1)";
"            builder.copy_from_struct(pos + 8, Type, type)";
"        return builder.as_string()";
"    ";
"    def __init__(self, unbound=_undefined, type=_undefined):";
"        _buf = Brand_Binding.__new(unbound, type)";
"        self._init_from_buffer(_buf, 0, 1, 1)";
"    ";
"    @classmethod";
"    def new_unbound(cls, unbound=None):";
"        buf = Brand_Binding.__new(unbound=unbound, type=_undefined)";
"        return cls.from_buffer(buf, 0, 1, 1)";
"    ";
"    @classmethod";
"    def new_type(cls, type=None):";
"        buf = Brand_Binding.__new(type=type, unbound=_undefined)";
"        return cls.from_buffer(buf, 0, 1, 1)";
"    "].

(** schema.py:3086-3124 *)
Definition t_Brand_node : struct_node := mksn 0 1 None
  [FSlot "scopes" 0 None (TList (ITStruct 2 1)) 0 false 0].
Definition t_Brand_names : table := [("", "scopes", ("", "", "", "_Brand_Scope_list_item_type", ""))].
Definition t_Brand : list string := [
"    @property";
"    def scopes(self):";
"        # no union check";
"        return self._read_list(0, _Brand_Scope_list_item_type)";
"    ";
"    def get_scopes(self):";
"        res = self.scopes";
"        if res is None:";
"            return _List.from_buffer(b'', 0, 0, 0, _Brand_Scope_list_item_type)";
"        return res";
"    ";
"    def has_scopes(self):";
"        ptr = self._read_fast_ptr(0)";
"        return ptr != 0";
"    ";
"    @staticmethod";
"    def __new(scopes=None):";
"        builder = _SegmentBuilder()";
"        pos = builder.allocate(8)";
"        builder.copy_from_list(pos + 0, _Brand_Scope_list_item_type, scopes)";
"        return builder.as_string()";
"    ";
"    def __init__(self, scopes=None):";
"        _buf = Brand.__new(scopes)";
"        self._init_from_buffer(_buf, 0, 0, 1)";
"    "].

(** schema.py:3128-3177 *)
Definition t_CapnpVersion_node : struct_node := mksn 1 0 None
  [FSlot "major" 0 None (TPrim FH) 0 false 0;
   FSlot "minor" 1 None (TPrim FB) 2 false 0;
   FSlot "micro" 2 None (TPrim FB) 3 false 0].
Definition t_CapnpVersion_names : table := [].
Definition t_CapnpVersion : list string := [
"    @property";
"    def major(self):";
"        # no union check";
"        value = self._read_primitive(0, ord(b'H'))";
"        if 0 != 0:";
"            value = value ^ 0";
"        return value";
"    ";
"    @property";
"    def minor(self):";
"        # no union check";
"        value = self._read_primitive(2, ord(b'B'))";
"        if 0 != 0:";
"            value = value ^ 0";
"        return value";
"    ";
"    @property";
"    def micro(self):";
"        # no union check";
"        value = self._read_primitive(3, ord(b'B'))";
"        if 0 != 0:";
"            value = value ^ 0";
"        return value";
"    ";
"    @staticmethod";
"    def __new(major=0, minor=0, micro=0):";
"        builder = _SegmentBuilder()";
"        pos = builder.allocate(8)";
"        builder.write_uint16(pos + 0, major)";
"        builder.write_uint8(pos + 2, minor)";
"        builder.write_uint8(pos + 3, micro)";
"        return builder.as_string()";
"    ";
"    def __init__(self, major=0, minor=0, micro=0):";
"        _buf = CapnpVersion.__new(major, minor, micro)";
"        self._init_from_buffer(_buf, 0, 1, 0)";
"    "].

(** schema.py:3181-3224 *)
Definition t_CodeGeneratorRequest_RequestedFile_Import_node : struct_node := mksn 1 1 None
  [FSlot "id" 0 None (TPrim FQ) 0 false 0;
   FSlot "name" 1 None TText 0 false 0].
Definition t_CodeGeneratorRequest_RequestedFile_Import_names : table := [].
Definition t_CodeGeneratorRequest_RequestedFile_Import : list string := [
"    @property";
"    def id(self):";
"        # no union check";
"        value = self._read_primitive(0, ord(b'Q'))";
"        if 0 != 0:";
"            value = value ^ 0";
"        return value";
"    ";
"    @property";
"    def name(self):";
"        # no union check";
"        return self._read_text_bytes(0)";
"    ";
"    def get_name(self):";
"        return self._read_text_bytes(0, default_=b"""")";
"    ";
"    def has_name(self):";
"        ptr = self._read_fast_ptr(0)";
"        return ptr != 0";
"    ";
"    @staticmethod";
"    def __new(id=0, name=None):";
"        builder = _SegmentBuilder()";
"        pos = builder.allocate(16)";
"        builder.write_uint64(pos + 0, id)";
"        builder.alloc_text(pos + 8, name)";
"        return builder.as_string()";
"    ";
"    def __init__(self, id=0, name=None):";
"        _buf = CodeGeneratorRequest_RequestedFile_Import.__new(id, name)";
"        self._init_from_buffer(_buf, 0, 1, 1)";
"    "].

(** schema.py:3228-3289 *)
Definition t_CodeGeneratorRequest_RequestedFile_node : struct_node := mksn 1 2 None
  [FSlot "id" 0 None (TPrim FQ) 0 false 0;
   FSlot "filename" 1 None TText 0 false 0;
   FSlot "imports" 2 None (TList (ITStruct 1 1)) 1 false 0].
Definition t_CodeGeneratorRequest_RequestedFile_names : table := [("", "imports", ("", "", "", "_CodeGeneratorRequest_RequestedFile_Import_list_item_type", ""))].
Definition t_CodeGeneratorRequest_RequestedFile : list string := [
"    @property";
"    def id(self):";
"        # no union check";
"        value = self._read_primitive(0, ord(b'Q'))";
"        if 0 != 0:";
"            value = value ^ 0";
"        return value";
"    ";
"    @property";
"    def filename(self):";
"        # no union check";
"        return self._read_text_bytes(0)";
"    ";
"    def get_filename(self):";
"        return self._read_text_bytes(0, default_=b"""")";
"    ";
"    def has_filename(self):";
"        ptr = self._read_fast_ptr(0)";
"        return ptr != 0";
"    ";
"    @property";
"    def imports(self):";
"        # no union check";
"        return self._read_list(8, _CodeGeneratorRequest_RequestedFile_Import_list_item_type)";
"    ";
"    def get_imports(self):";
"        res = self.imports";
"        if res is None:";
"            return _List.from_buffer(b'', 0, 0, 0, _CodeGeneratorRequest_RequestedFile_Import_list_item_type)";
"        return res";
"    ";
"    def has_imports(self):";
"        ptr = self._read_fast_ptr(8)";
"        return ptr != 0";
"    ";
"    @staticmethod";
"    def __new(id=0, filename=None, imports=None):";
"        builder = _SegmentBuilder()";
"        pos = builder.allocate(24)";
"        builder.write_uint64(pos + 0, id)";
"        builder.alloc_text(pos + 8, filename)";
"        builder.copy_from_list(pos + 16, _CodeGeneratorRequest_RequestedFile_Import_list_item_type, imports)";
"        return builder.as_string()";
"    ";
"    def __init__(self, id=0, filename=None, imports=None):";
"        _buf = CodeGeneratorRequest_RequestedFile.__new(id, filename, imports)";
"        self._init_from_buffer(_buf, 0, 1, 2)";
"    "].

(** schema.py:3293-3391 *)
Definition t_CodeGeneratorRequest_node : struct_node := mksn 0 4 None
  [FSlot "nodes" 0 None (TList (ITStruct 5 6)) 0 false 0;
   FSlot "requestedFiles" 1 None (TList (ITStruct 1 2)) 1 false 0;
   FSlot "capnpVersion" 2 None TStruct 2 false 0;
   FSlot "sourceInfo" 3 None (TList (ITStruct 1 2)) 3 false 0].
Definition t_CodeGeneratorRequest_names : table := [("", "nodes", ("", "", "", "_Node_list_item_type", ""));
  ("", "requestedFiles", ("", "", "", "_CodeGeneratorRequest_RequestedFile_list_item_type", ""));
  ("", "capnpVersion", ("CapnpVersion", "", "", "", ""));
  ("", "sourceInfo", ("", "", "", "_Node_SourceInfo_list_item_type", ""))].
Definition t_CodeGeneratorRequest : list string := [
"    @property";
"    def nodes(self):";
"        # no union check";
"        return self._read_list(0, _Node_list_item_type)";
"    ";
"    def get_nodes(self):";
"        res = self.nodes";
"        if res is None:";
"            return _List.from_buffer(b'', 0, 0, 0, _Node_list_item_type)";
"        return res";
"    ";
"    def has_nodes(self):";
"        ptr = self._read_fast_ptr(0)";
"        return ptr != 0";
"    ";
"    @property";
"    def requestedFiles(self):";
"        # no union check";
"        return self._read_list(8, _CodeGeneratorRequest_RequestedFile_list_item_type)";
"    ";
"    def get_requestedFiles(self):";
"        res = self.requestedFiles";
"        if res is None:";
"            return _List.from_buffer(b'', 0, 0, 0, _CodeGeneratorRequest_RequestedFile_list_item_type)";
"        return res";
"    ";
"    def has_requestedFiles(self):";
"        ptr = self._read_fast_ptr(8)";
"        return ptr != 0";
"    ";
"    @property";
"    def capnpVersion(self):";
"        # no union check";
"        offset = 16";
"        p = self._read_fast_ptr(offset)";
"        if _ptr.kind(p) == _ptr.FAR:";
"            offset, p = self._read_far_ptr(offset)";
"        else:";
"            offset += self._ptrs_offset";
"        if p == 0:";
"            return None";
"        obj = CapnpVersion.__new__(CapnpVersion)";
"        obj._init_from_pointer(self._seg, offset, p)";
"        return obj";
"    ";
"    def get_capnpVersion(self):";
"        res = self.capnpVersion";
"        if res is None:";
"            return CapnpVersion.from_buffer(b'', 0, data_size=0, ptrs_size=0)";
"        return res";
"    ";
"    def has_capnpVersion(self):";
"        ptr = self._read_fast_ptr(16)";
"        return ptr != 0";
"    ";
"    @property";
"    def sourceInfo(self):";
"        # no union check";
"        return self._read_list(24, _Node_SourceInfo_list_item_type)";
"    ";
"    def get_sourceInfo(self):";
"        res = self.sourceInfo";
"        if res is None:";
"            return _List.from_buffer(b'', 0, 0, 0, _Node_SourceInfo_list_item_type)";
"        return res";
"    ";
"    def has_sourceInfo(self):";
"        ptr = self._read_fast_ptr(24)";
"        return ptr != 0";
"    ";
"    @staticmethod";
"    def __new(nodes=None, requestedFiles=None, capnpVersion=None, sourceInfo=None):";
"        builder = _SegmentBuilder()";
"        pos = builder.allocate(32)";
"        builder.copy_from_list(pos + 0, _Node_list_item_type, nodes)";
"        builder.copy_from_list(pos + 8, _CodeGeneratorRequest_RequestedFile_list_item_type, requestedFiles)";
"        builder.copy_from_struct(pos + 16, CapnpVersion, capnpVersion)";
"        builder.copy_from_list(pos + 24, _Node_SourceInfo_list_item_type, sourceInfo)";
"        return builder.as_string()";
"    ";
"    def __init__(self, nodes=None, requestedFiles=None, capnpVersion=None, sourceInfo=None):";
"        _buf = CodeGeneratorRequest.__new(nodes, requestedFiles, capnpVersion, sourceInfo)";
"        self._init_from_buffer(_buf, 0, 0, 4)";
"    "].

(** annotate.py:123-186 *)
Definition t_Options_node : struct_node := mksn 1 0 None
  [FSlot "version_check" 0 None TEnum 0 true 2;
   FSlot "convert_case" 1 None TEnum 1 true 2;
   FSlot "text_type" 2 None TEnum 2 true 0;
   FSlot "include_reflection_data" 3 None TEnum 3 true 2].
Definition t_Options_names : table := [("", "version_check", ("", "BoolOption", "", "", ""));
  ("", "convert_case", ("", "BoolOption", "", "", ""));
  ("", "text_type", ("", "TextType", "", "", ""));
  ("", "include_reflection_data", ("", "BoolOption", "", "", ""))].
Definition t_Options : list string := [
"    @property";
"    def version_check(self):";
"        # no union check";
"        value = self._read_int16(0)";
"        if 2 != 0:";
"            value = (value ^ 2)";
"        return BoolOption._new(value)";
"    ";
"    @property";
"    def convert_case(self):";
"        # no union check";
"        value = self._read_int16(2)";
"        if 2 != 0:";
"            value = (value ^ 2)";
"        return BoolOption._new(value)";
"    ";
"    @property";
"    def text_type(self):";
"        # no union check";
"        value = self._read_int16(4)";
"        if 0 != 0:";
"            value = (value ^ 0)";
"        return TextType._new(value)";
"    ";
"    @property";
"    def include_reflection_data(self):";
"        # no union check";
"        value = self._read_int16(6)";
"        if 2 != 0:";
"            value = (value ^ 2)";
"        return BoolOption._new(value)";
"    ";
"    @staticmethod";
"    def __new(version_check=2, convert_case=2, text_type=0, include_reflection_data=2):";
"        builder = _SegmentBuilder()";
"        pos = builder.allocate(8)";
"        version_check ^= 2";
"        builder.write_int16(pos + 0, version_check)";
"        convert_case ^= 2";
"        builder.write_int16(pos + 2, convert_case)";
"        text_type ^= 0";
"        builder.write_int16(pos + 4, text_type)";
"        include_reflection_data ^= 2";
"        builder.write_int16(pos + 6, include_reflection_data)";
"        return builder.as_string()";
"    ";
"    def __init__(self, version_check=2, convert_case=2, text_type=0, include_reflection_data=2):";
"        _buf = Options.__new(version_check, convert_case, text_type, include_reflection_data)";
"        self._init_from_buffer(_buf, 0, 1, 0)";
"    "].

(** name, isGroup, layout, names, text *)
Definition texts : list (string * bool * struct_node * table * list string) :=
  [("Field_slot", true, t_Field_slot_node, t_Field_slot_names, t_Field_slot);
   ("Field_group", true, t_Field_group_node, t_Field_group_names, t_Field_group);
   ("Field_ordinal", true, t_Field_ordinal_node, t_Field_ordinal_names, t_Field_ordinal);
   ("Field", false, t_Field_node, t_Field_names, t_Field);
   ("Node_struct", true, t_Node_struct_node, t_Node_struct_names, t_Node_struct);
   ("Node_enum", true, t_Node_enum_node, t_Node_enum_names, t_Node_enum);
   ("Node_interface", true, t_Node_interface_node, t_Node_interface_names, t_Node_interface);
   ("Node_const", true, t_Node_const_node, t_Node_const_names, t_Node_const);
   ("Node_annotation", true, t_Node_annotation_node, t_Node_annotation_names, t_Node_annotation);
   ("Node_NestedNode", false, t_Node_NestedNode_node, t_Node_NestedNode_names, t_Node_NestedNode);
   ("Node_Parameter", false, t_Node_Parameter_node, t_Node_Parameter_names, t_Node_Parameter);
   ("Node_SourceInfo_Member", false, t_Node_SourceInfo_Member_node, t_Node_SourceInfo_Member_names, t_Node_SourceInfo_Member);
   ("Node_SourceInfo", false, t_Node_SourceInfo_node, t_Node_SourceInfo_names, t_Node_SourceInfo);
   ("Node", false, t_Node_node, t_Node_names, t_Node);
   ("Enumerant", false, t_Enumerant_node, t_Enumerant_names, t_Enumerant);
   ("Method", false, t_Method_node, t_Method_names, t_Method);
   ("Superclass", false, t_Superclass_node, t_Superclass_names, t_Superclass);
   ("Type_list", true, t_Type_list_node, t_Type_list_names, t_Type_list);
   ("Type_enum", true, t_Type_enum_node, t_Type_enum_names, t_Type_enum);
   ("Type_struct", true, t_Type_struct_node, t_Type_struct_names, t_Type_struct);
   ("Type_interface", true, t_Type_interface_node, t_Type_interface_names, t_Type_interface);
   ("Type_anyPointer_unconstrained", true, t_Type_anyPointer_unconstrained_node, t_Type_anyPointer_unconstrained_names, t_Type_anyPointer_unconstrained);
   ("Type_anyPointer_parameter", true, t_Type_anyPointer_parameter_node, t_Type_anyPointer_parameter_names, t_Type_anyPointer_parameter);
   ("Type_anyPointer_implicitMethodParameter", true, t_Type_anyPointer_implicitMethodParameter_node, t_Type_anyPointer_implicitMethodParameter_names, t_Type_anyPointer_implicitMethodParameter);
   ("Type_anyPointer", true, t_Type_anyPointer_node, t_Type_anyPointer_names, t_Type_anyPointer);
   ("Type", false, t_Type_node, t_Type_names, t_Type);
   ("Value", false, t_Value_node, t_Value_names, t_Value);
   ("Annotation", false, t_Annotation_node, t_Annotation_names, t_Annotation);
   ("Brand_Scope", false, t_Brand_Scope_node, t_Brand_Scope_names, t_Brand_Scope);
   ("Brand_Binding", false, t_Brand_Binding_node, t_Brand_Binding_names, t_Brand_Binding);
   ("Brand", false, t_Brand_node, t_Brand_names, t_Brand);
   ("CapnpVersion", false, t_CapnpVersion_node, t_CapnpVersion_names, t_CapnpVersion);
   ("CodeGeneratorRequest_RequestedFile_Import", false, t_CodeGeneratorRequest_RequestedFile_Import_node, t_CodeGeneratorRequest_RequestedFile_Import_names, t_CodeGeneratorRequest_RequestedFile_Import);
   ("CodeGeneratorRequest_RequestedFile", false, t_CodeGeneratorRequest_RequestedFile_node, t_CodeGeneratorRequest_RequestedFile_names, t_CodeGeneratorRequest_RequestedFile);
   ("CodeGeneratorRequest", false, t_CodeGeneratorRequest_node, t_CodeGeneratorRequest_names, t_CodeGeneratorRequest);
   ("Options", false, t_Options_node, t_Options_names, t_Options)].
