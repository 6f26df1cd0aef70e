(** The classes of capnpy/schema.py and capnpy/annotate.py, which were generated
    by the compiler itself (all the others come from the user's schemas).
    Written by tools/gen_schemapy.py, which reads the text of the two files:
    the layout of each class is taken from its getters, [.._new] is the text
    of its static method __new, line by line, without the names that the
    model does not have: the classes given to copy_from_struct and the names
    given to _check_tag are replaced by _, the item types by their sizes, the text in
    NotImplementedError by _. codeOrder is not in the text:
    it is the position here; hadExplicitDefault with a default of 0 is seen in
    __new only. *)
From Verif Require Import Base List Ctor.
From Coq Require Import String.
From Coq Require Import Lists.List.
Local Open Scope string_scope.
Local Open Scope list_scope.
Local Open Scope Z_scope.


(** schema.py:364-516 *)
Definition c_Field : struct_node := mksn 3 4 (Some 4)
  [FSlot "name" 0 None TText 0 false 0;
   FSlot "codeOrder" 1 None (TPrim FH) 0 false 0;
   FSlot "annotations" 2 None (TList (ITStruct 1 2)) 1 false 0;
   FSlot "discriminantValue" 3 None (TPrim FH) 1 true 65535;
   FGroup "slot" 4 (Some 0) false None
      [FSlot "offset" 0 None (TPrim FI) 1 false 0;
       FSlot "type" 1 None TStruct 2 false 0;
       FSlot "defaultValue" 2 None TStruct 3 false 0;
       FSlot "hadExplicitDefault" 3 None TBool 128 false 0];
   FGroup "group" 5 (Some 1) false None
      [FSlot "typeId" 0 None (TPrim FQ) 2 false 0];
   FGroup "ordinal" 6 None false (Some 5)
      [FSlot "implicit" 0 (Some 0) TVoid 0 false 0;
       FSlot "explicit" 1 (Some 1) (TPrim FH) 6 false 0]].
(** schema.py:459-490 *)
Definition c_Field_new : list string := [
  "def __new(name=None, codeOrder=0, annotations=None, discriminantValue=65535, slot=_undefined, group=_undefined, ordinal=(_undefined, _undefined,)):";
  "builder = _SegmentBuilder()";
  "pos = builder.allocate(56)";
  "anonymous__curtag = None";
  "ordinal__curtag = None";
  "builder.alloc_text(pos + 24, name)";
  "builder.write_uint16(pos + 0, codeOrder)";
  "builder.copy_from_list(pos + 32, (ITStruct 1 2), annotations)";
  "discriminantValue ^= 65535";
  "builder.write_uint16(pos + 2, discriminantValue)";
  "if slot is not _undefined:";
  "    anonymous__curtag = _check_tag(anonymous__curtag, _)";
  "    builder.write_int16(8, 0)";
  "    slot_offset, slot_type, slot_defaultValue, slot_hadExplicitDefault, = slot";
  "    builder.write_uint32(pos + 4, slot_offset)";
  "    builder.copy_from_struct(pos + 40, _, slot_type)";
  "    builder.copy_from_struct(pos + 48, _, slot_defaultValue)";
  "    builder.write_bool(16, 0, slot_hadExplicitDefault)";
  "if group is not _undefined:";
  "    anonymous__curtag = _check_tag(anonymous__curtag, _)";
  "    builder.write_int16(8, 1)";
  "    group_typeId, = group";
  "    builder.write_uint64(pos + 16, group_typeId)";
  "ordinal_implicit, ordinal_explicit, = ordinal";
  "if ordinal_implicit is not _undefined:";
  "    ordinal__curtag = _check_tag(ordinal__curtag, _)";
  "    builder.write_int16(10, 0)";
  "if ordinal_explicit is not _undefined:";
  "    ordinal__curtag = _check_tag(ordinal__curtag, _)";
  "    builder.write_int16(10, 1)";
  "    builder.write_uint16(pos + 12, ordinal_explicit)";
  "return builder.as_string()"].

(** schema.py:889-932 *)
Definition c_Node_NestedNode : struct_node := mksn 1 1 None
  [FSlot "name" 0 None TText 0 false 0;
   FSlot "id" 1 None (TPrim FQ) 0 false 0].
(** schema.py:916-921 *)
Definition c_Node_NestedNode_new : list string := [
  "def __new(name=None, id=0):";
  "builder = _SegmentBuilder()";
  "pos = builder.allocate(16)";
  "builder.alloc_text(pos + 8, name)";
  "builder.write_uint64(pos + 0, id)";
  "return builder.as_string()"].

(** schema.py:936-969 *)
Definition c_Node_Parameter : struct_node := mksn 0 1 None
  [FSlot "name" 0 None TText 0 false 0].
(** schema.py:955-959 *)
Definition c_Node_Parameter_new : list string := [
  "def __new(name=None):";
  "builder = _SegmentBuilder()";
  "pos = builder.allocate(8)";
  "builder.alloc_text(pos + 0, name)";
  "return builder.as_string()"].

(** schema.py:973-1006 *)
Definition c_Node_SourceInfo_Member : struct_node := mksn 0 1 None
  [FSlot "docComment" 0 None TText 0 false 0].
(** schema.py:992-996 *)
Definition c_Node_SourceInfo_Member_new : list string := [
  "def __new(docComment=None):";
  "builder = _SegmentBuilder()";
  "pos = builder.allocate(8)";
  "builder.alloc_text(pos + 0, docComment)";
  "return builder.as_string()"].

(** schema.py:1010-1071 *)
Definition c_Node_SourceInfo : struct_node := mksn 1 2 None
  [FSlot "id" 0 None (TPrim FQ) 0 false 0;
   FSlot "docComment" 1 None TText 0 false 0;
   FSlot "members" 2 None (TList (ITStruct 0 1)) 1 false 0].
(** schema.py:1053-1059 *)
Definition c_Node_SourceInfo_new : list string := [
  "def __new(id=0, docComment=None, members=None):";
  "builder = _SegmentBuilder()";
  "pos = builder.allocate(24)";
  "builder.write_uint64(pos + 0, id)";
  "builder.alloc_text(pos + 8, docComment)";
  "builder.copy_from_list(pos + 16, (ITStruct 0 1), members)";
  "return builder.as_string()"].

(** schema.py:1075-1368 *)
Definition c_Node : struct_node := mksn 5 6 (Some 6)
  [FSlot "id" 0 None (TPrim FQ) 0 false 0;
   FSlot "displayName" 1 None TText 0 false 0;
   FSlot "displayNamePrefixLength" 2 None (TPrim FI) 2 false 0;
   FSlot "scopeId" 3 None (TPrim FQ) 2 false 0;
   FSlot "nestedNodes" 4 None (TList (ITStruct 1 1)) 1 false 0;
   FSlot "annotations" 5 None (TList (ITStruct 1 2)) 2 false 0;
   FSlot "file" 6 (Some 0) TVoid 0 false 0;
   FGroup "struct" 7 (Some 1) false None
      [FSlot "dataWordCount" 0 None (TPrim FH) 7 false 0;
       FSlot "pointerCount" 1 None (TPrim FH) 12 false 0;
       FSlot "preferredListEncoding" 2 None TEnum 13 false 0;
       FSlot "isGroup" 3 None TBool 224 false 0;
       FSlot "discriminantCount" 4 None (TPrim FH) 15 false 0;
       FSlot "discriminantOffset" 5 None (TPrim FI) 8 false 0;
       FSlot "fields" 6 None (TList (ITStruct 3 4)) 3 false 0];
   FGroup "enum" 8 (Some 2) false None
      [FSlot "enumerants" 0 None (TList (ITStruct 1 2)) 3 false 0];
   FGroup "interface" 9 (Some 3) false None
      [FSlot "methods" 0 None (TList (ITStruct 3 5)) 3 false 0;
       FSlot "superclasses" 1 None (TList (ITStruct 1 1)) 4 false 0];
   FGroup "const" 10 (Some 4) false None
      [FSlot "type" 0 None TStruct 3 false 0;
       FSlot "value" 1 None TStruct 4 false 0];
   FGroup "annotation" 11 (Some 5) false None
      [FSlot "type" 0 None TStruct 3 false 0;
       FSlot "targetsFile" 1 None TBool 112 false 0;
       FSlot "targetsConst" 2 None TBool 113 false 0;
       FSlot "targetsEnum" 3 None TBool 114 false 0;
       FSlot "targetsEnumerant" 4 None TBool 115 false 0;
       FSlot "targetsStruct" 5 None TBool 116 false 0;
       FSlot "targetsField" 6 None TBool 117 false 0;
       FSlot "targetsUnion" 7 None TBool 118 false 0;
       FSlot "targetsGroup" 8 None TBool 119 false 0;
       FSlot "targetsInterface" 9 None TBool 120 false 0;
       FSlot "targetsMethod" 10 None TBool 121 false 0;
       FSlot "targetsParam" 11 None TBool 122 false 0;
       FSlot "targetsAnnotation" 12 None TBool 123 false 0];
   FSlot "parameters" 12 None (TList (ITStruct 0 1)) 5 false 0;
   FSlot "isGeneric" 13 None TBool 288 false 0].
(** schema.py:1255-1315 *)
Definition c_Node_new : list string := [
  "def __new(id=0, displayName=None, displayNamePrefixLength=0, scopeId=0, nestedNodes=None, annotations=None, file=_undefined, struct=_undefined, enum=_undefined, interface=_undefined, const=_undefined, annotation=_undefined, parameters=None, isGeneric=False):";
  "builder = _SegmentBuilder()";
  "pos = builder.allocate(88)";
  "anonymous__curtag = None";
  "builder.write_uint64(pos + 0, id)";
  "builder.alloc_text(pos + 40, displayName)";
  "builder.write_uint32(pos + 8, displayNamePrefixLength)";
  "builder.write_uint64(pos + 16, scopeId)";
  "builder.copy_from_list(pos + 48, (ITStruct 1 1), nestedNodes)";
  "builder.copy_from_list(pos + 56, (ITStruct 1 2), annotations)";
  "if file is not _undefined:";
  "    anonymous__curtag = _check_tag(anonymous__curtag, _)";
  "    builder.write_int16(12, 0)";
  "if struct is not _undefined:";
  "    anonymous__curtag = _check_tag(anonymous__curtag, _)";
  "    builder.write_int16(12, 1)";
  "    struct_dataWordCount, struct_pointerCount, struct_preferredListEncoding, struct_isGroup, struct_discriminantCount, struct_discriminantOffset, struct_fields, = struct";
  "    builder.write_uint16(pos + 14, struct_dataWordCount)";
  "    builder.write_uint16(pos + 24, struct_pointerCount)";
  "    builder.write_int16(pos + 26, struct_preferredListEncoding)";
  "    builder.write_bool(28, 0, struct_isGroup)";
  "    builder.write_uint16(pos + 30, struct_discriminantCount)";
  "    builder.write_uint32(pos + 32, struct_discriminantOffset)";
  "    builder.copy_from_list(pos + 64, (ITStruct 3 4), struct_fields)";
  "if enum is not _undefined:";
  "    anonymous__curtag = _check_tag(anonymous__curtag, _)";
  "    builder.write_int16(12, 2)";
  "    enum_enumerants, = enum";
  "    builder.copy_from_list(pos + 64, (ITStruct 1 2), enum_enumerants)";
  "if interface is not _undefined:";
  "    anonymous__curtag = _check_tag(anonymous__curtag, _)";
  "    builder.write_int16(12, 3)";
  "    interface_methods, interface_superclasses, = interface";
  "    builder.copy_from_list(pos + 64, (ITStruct 3 5), interface_methods)";
  "    builder.copy_from_list(pos + 72, (ITStruct 1 1), interface_superclasses)";
  "if const is not _undefined:";
  "    anonymous__curtag = _check_tag(anonymous__curtag, _)";
  "    builder.write_int16(12, 4)";
  "    const_type, const_value, = const";
  "    builder.copy_from_struct(pos + 64, _, const_type)";
  "    builder.copy_from_struct(pos + 72, _, const_value)";
  "if annotation is not _undefined:";
  "    anonymous__curtag = _check_tag(anonymous__curtag, _)";
  "    builder.write_int16(12, 5)";
  "    annotation_type, annotation_targetsFile, annotation_targetsConst, annotation_targetsEnum, annotation_targetsEnumerant, annotation_targetsStruct, annotation_targetsField, annotation_targetsUnion, annotation_targetsGroup, annotation_targetsInterface, annotation_targetsMethod, annotation_targetsParam, annotation_targetsAnnotation, = annotation";
  "    builder.copy_from_struct(pos + 64, _, annotation_type)";
  "    builder.write_bool(14, 0, annotation_targetsFile)";
  "    builder.write_bool(14, 1, annotation_targetsConst)";
  "    builder.write_bool(14, 2, annotation_targetsEnum)";
  "    builder.write_bool(14, 3, annotation_targetsEnumerant)";
  "    builder.write_bool(14, 4, annotation_targetsStruct)";
  "    builder.write_bool(14, 5, annotation_targetsField)";
  "    builder.write_bool(14, 6, annotation_targetsUnion)";
  "    builder.write_bool(14, 7, annotation_targetsGroup)";
  "    builder.write_bool(15, 0, annotation_targetsInterface)";
  "    builder.write_bool(15, 1, annotation_targetsMethod)";
  "    builder.write_bool(15, 2, annotation_targetsParam)";
  "    builder.write_bool(15, 3, annotation_targetsAnnotation)";
  "builder.copy_from_list(pos + 80, (ITStruct 0 1), parameters)";
  "builder.write_bool(36, 0, isGeneric)";
  "return builder.as_string()"].

(** schema.py:1372-1432 *)
Definition c_Enumerant : struct_node := mksn 1 2 None
  [FSlot "name" 0 None TText 0 false 0;
   FSlot "codeOrder" 1 None (TPrim FH) 0 false 0;
   FSlot "annotations" 2 None (TList (ITStruct 1 2)) 1 false 0].
(** schema.py:1414-1420 *)
Definition c_Enumerant_new : list string := [
  "def __new(name=None, codeOrder=0, annotations=None):";
  "builder = _SegmentBuilder()";
  "pos = builder.allocate(24)";
  "builder.alloc_text(pos + 8, name)";
  "builder.write_uint16(pos + 0, codeOrder)";
  "builder.copy_from_list(pos + 16, (ITStruct 1 2), annotations)";
  "return builder.as_string()"].

(** schema.py:1436-1587 *)
Definition c_Method : struct_node := mksn 3 5 None
  [FSlot "name" 0 None TText 0 false 0;
   FSlot "codeOrder" 1 None (TPrim FH) 0 false 0;
   FSlot "paramStructType" 2 None (TPrim FQ) 1 false 0;
   FSlot "resultStructType" 3 None (TPrim FQ) 2 false 0;
   FSlot "annotations" 4 None (TList (ITStruct 1 2)) 1 false 0;
   FSlot "paramBrand" 5 None TStruct 2 false 0;
   FSlot "resultBrand" 6 None TStruct 3 false 0;
   FSlot "implicitParameters" 7 None (TList (ITStruct 0 1)) 4 false 0].
(** schema.py:1559-1570 *)
Definition c_Method_new : list string := [
  "def __new(name=None, codeOrder=0, paramStructType=0, resultStructType=0, annotations=None, paramBrand=None, resultBrand=None, implicitParameters=None):";
  "builder = _SegmentBuilder()";
  "pos = builder.allocate(64)";
  "builder.alloc_text(pos + 24, name)";
  "builder.write_uint16(pos + 0, codeOrder)";
  "builder.write_uint64(pos + 8, paramStructType)";
  "builder.write_uint64(pos + 16, resultStructType)";
  "builder.copy_from_list(pos + 32, (ITStruct 1 2), annotations)";
  "builder.copy_from_struct(pos + 40, _, paramBrand)";
  "builder.copy_from_struct(pos + 48, _, resultBrand)";
  "builder.copy_from_list(pos + 56, (ITStruct 0 1), implicitParameters)";
  "return builder.as_string()"].

(** schema.py:1591-1647 *)
Definition c_Superclass : struct_node := mksn 1 1 None
  [FSlot "id" 0 None (TPrim FQ) 0 false 0;
   FSlot "brand" 1 None TStruct 0 false 0].
(** schema.py:1631-1636 *)
Definition c_Superclass_new : list string := [
  "def __new(id=0, brand=None):";
  "builder = _SegmentBuilder()";
  "pos = builder.allocate(16)";
  "builder.write_uint64(pos + 0, id)";
  "builder.copy_from_struct(pos + 8, _, brand)";
  "return builder.as_string()"].

(** schema.py:1998-2402 *)
Definition c_Type : struct_node := mksn 3 1 (Some 0)
  [FSlot "void" 0 (Some 0) TVoid 0 false 0;
   FSlot "bool" 1 (Some 1) TVoid 0 false 0;
   FSlot "int8" 2 (Some 2) TVoid 0 false 0;
   FSlot "int16" 3 (Some 3) TVoid 0 false 0;
   FSlot "int32" 4 (Some 4) TVoid 0 false 0;
   FSlot "int64" 5 (Some 5) TVoid 0 false 0;
   FSlot "uint8" 6 (Some 6) TVoid 0 false 0;
   FSlot "uint16" 7 (Some 7) TVoid 0 false 0;
   FSlot "uint32" 8 (Some 8) TVoid 0 false 0;
   FSlot "uint64" 9 (Some 9) TVoid 0 false 0;
   FSlot "float32" 10 (Some 10) TVoid 0 false 0;
   FSlot "float64" 11 (Some 11) TVoid 0 false 0;
   FSlot "text" 12 (Some 12) TVoid 0 false 0;
   FSlot "data" 13 (Some 13) TVoid 0 false 0;
   FGroup "list" 14 (Some 14) false None
      [FSlot "elementType" 0 None TStruct 0 false 0];
   FGroup "enum" 15 (Some 15) false None
      [FSlot "typeId" 0 None (TPrim FQ) 1 false 0;
       FSlot "brand" 1 None TStruct 0 false 0];
   FGroup "struct" 16 (Some 16) false None
      [FSlot "typeId" 0 None (TPrim FQ) 1 false 0;
       FSlot "brand" 1 None TStruct 0 false 0];
   FGroup "interface" 17 (Some 17) false None
      [FSlot "typeId" 0 None (TPrim FQ) 1 false 0;
       FSlot "brand" 1 None TStruct 0 false 0];
   FGroup "anyPointer" 18 (Some 18) false (Some 4)
      [FGroup "unconstrained" 0 (Some 0) false (Some 5)
      [FSlot "anyKind" 0 (Some 0) TVoid 0 false 0;
       FSlot "struct" 1 (Some 1) TVoid 0 false 0;
       FSlot "list" 2 (Some 2) TVoid 0 false 0;
       FSlot "capability" 3 (Some 3) TVoid 0 false 0];
       FGroup "parameter" 1 (Some 1) false None
      [FSlot "scopeId" 0 None (TPrim FQ) 2 false 0;
       FSlot "parameterIndex" 1 None (TPrim FH) 5 false 0];
       FGroup "implicitMethodParameter" 2 (Some 2) false None
      [FSlot "parameterIndex" 0 None (TPrim FH) 5 false 0]]].
(** schema.py:2177-2279 *)
Definition c_Type_new : list string := [
  "def __new(void=_undefined, bool=_undefined, int8=_undefined, int16=_undefined, int32=_undefined, int64=_undefined, uint8=_undefined, uint16=_undefined, uint32=_undefined, uint64=_undefined, float32=_undefined, float64=_undefined, text=_undefined, data=_undefined, list=_undefined, enum=_undefined, struct=_undefined, interface=_undefined, anyPointer=_undefined):";
  "builder = _SegmentBuilder()";
  "pos = builder.allocate(32)";
  "anonymous__curtag = None";
  "anyPointer__curtag = None";
  "anyPointer_unconstrained__curtag = None";
  "if void is not _undefined:";
  "    anonymous__curtag = _check_tag(anonymous__curtag, _)";
  "    builder.write_int16(0, 0)";
  "if bool is not _undefined:";
  "    anonymous__curtag = _check_tag(anonymous__curtag, _)";
  "    builder.write_int16(0, 1)";
  "if int8 is not _undefined:";
  "    anonymous__curtag = _check_tag(anonymous__curtag, _)";
  "    builder.write_int16(0, 2)";
  "if int16 is not _undefined:";
  "    anonymous__curtag = _check_tag(anonymous__curtag, _)";
  "    builder.write_int16(0, 3)";
  "if int32 is not _undefined:";
  "    anonymous__curtag = _check_tag(anonymous__curtag, _)";
  "    builder.write_int16(0, 4)";
  "if int64 is not _undefined:";
  "    anonymous__curtag = _check_tag(anonymous__curtag, _)";
  "    builder.write_int16(0, 5)";
  "if uint8 is not _undefined:";
  "    anonymous__curtag = _check_tag(anonymous__curtag, _)";
  "    builder.write_int16(0, 6)";
  "if uint16 is not _undefined:";
  "    anonymous__curtag = _check_tag(anonymous__curtag, _)";
  "    builder.write_int16(0, 7)";
  "if uint32 is not _undefined:";
  "    anonymous__curtag = _check_tag(anonymous__curtag, _)";
  "    builder.write_int16(0, 8)";
  "if uint64 is not _undefined:";
  "    anonymous__curtag = _check_tag(anonymous__curtag, _)";
  "    builder.write_int16(0, 9)";
  "if float32 is not _undefined:";
  "    anonymous__curtag = _check_tag(anonymous__curtag, _)";
  "    builder.write_int16(0, 10)";
  "if float64 is not _undefined:";
  "    anonymous__curtag = _check_tag(anonymous__curtag, _)";
  "    builder.write_int16(0, 11)";
  "if text is not _undefined:";
  "    anonymous__curtag = _check_tag(anonymous__curtag, _)";
  "    builder.write_int16(0, 12)";
  "if data is not _undefined:";
  "    anonymous__curtag = _check_tag(anonymous__curtag, _)";
  "    builder.write_int16(0, 13)";
  "if list is not _undefined:";
  "    anonymous__curtag = _check_tag(anonymous__curtag, _)";
  "    builder.write_int16(0, 14)";
  "    list_elementType, = list";
  "    builder.copy_from_struct(pos + 24, _, list_elementType)";
  "if enum is not _undefined:";
  "    anonymous__curtag = _check_tag(anonymous__curtag, _)";
  "    builder.write_int16(0, 15)";
  "    enum_typeId, enum_brand, = enum";
  "    builder.write_uint64(pos + 8, enum_typeId)";
  "    builder.copy_from_struct(pos + 24, _, enum_brand)";
  "if struct is not _undefined:";
  "    anonymous__curtag = _check_tag(anonymous__curtag, _)";
  "    builder.write_int16(0, 16)";
  "    struct_typeId, struct_brand, = struct";
  "    builder.write_uint64(pos + 8, struct_typeId)";
  "    builder.copy_from_struct(pos + 24, _, struct_brand)";
  "if interface is not _undefined:";
  "    anonymous__curtag = _check_tag(anonymous__curtag, _)";
  "    builder.write_int16(0, 17)";
  "    interface_typeId, interface_brand, = interface";
  "    builder.write_uint64(pos + 8, interface_typeId)";
  "    builder.copy_from_struct(pos + 24, _, interface_brand)";
  "if anyPointer is not _undefined:";
  "    anonymous__curtag = _check_tag(anonymous__curtag, _)";
  "    builder.write_int16(0, 18)";
  "    anyPointer_unconstrained, anyPointer_parameter, anyPointer_implicitMethodParameter, = anyPointer";
  "    if anyPointer_unconstrained is not _undefined:";
  "        anyPointer__curtag = _check_tag(anyPointer__curtag, _)";
  "        builder.write_int16(8, 0)";
  "        anyPointer_unconstrained_anyKind, anyPointer_unconstrained_struct, anyPointer_unconstrained_list, anyPointer_unconstrained_capability, = anyPointer_unconstrained";
  "        if anyPointer_unconstrained_anyKind is not _undefined:";
  "            anyPointer_unconstrained__curtag = _check_tag(anyPointer_unconstrained__curtag, _)";
  "            builder.write_int16(10, 0)";
  "        if anyPointer_unconstrained_struct is not _undefined:";
  "            anyPointer_unconstrained__curtag = _check_tag(anyPointer_unconstrained__curtag, _)";
  "            builder.write_int16(10, 1)";
  "        if anyPointer_unconstrained_list is not _undefined:";
  "            anyPointer_unconstrained__curtag = _check_tag(anyPointer_unconstrained__curtag, _)";
  "            builder.write_int16(10, 2)";
  "        if anyPointer_unconstrained_capability is not _undefined:";
  "            anyPointer_unconstrained__curtag = _check_tag(anyPointer_unconstrained__curtag, _)";
  "            builder.write_int16(10, 3)";
  "    if anyPointer_parameter is not _undefined:";
  "        anyPointer__curtag = _check_tag(anyPointer__curtag, _)";
  "        builder.write_int16(8, 1)";
  "        anyPointer_parameter_scopeId, anyPointer_parameter_parameterIndex, = anyPointer_parameter";
  "        builder.write_uint64(pos + 16, anyPointer_parameter_scopeId)";
  "        builder.write_uint16(pos + 10, anyPointer_parameter_parameterIndex)";
  "    if anyPointer_implicitMethodParameter is not _undefined:";
  "        anyPointer__curtag = _check_tag(anyPointer__curtag, _)";
  "        builder.write_int16(8, 2)";
  "        anyPointer_implicitMethodParameter_parameterIndex, = anyPointer_implicitMethodParameter";
  "        builder.write_uint16(pos + 10, anyPointer_implicitMethodParameter_parameterIndex)";
  "return builder.as_string()"].

(** schema.py:2406-2829 *)
Definition c_Value : struct_node := mksn 2 1 (Some 0)
  [FSlot "void" 0 (Some 0) TVoid 0 false 0;
   FSlot "bool" 1 (Some 1) TBool 16 false 0;
   FSlot "int8" 2 (Some 2) (TPrim Fb) 2 false 0;
   FSlot "int16" 3 (Some 3) (TPrim Fh) 1 false 0;
   FSlot "int32" 4 (Some 4) (TPrim Fi) 1 false 0;
   FSlot "int64" 5 (Some 5) (TPrim Fq) 1 false 0;
   FSlot "uint8" 6 (Some 6) (TPrim FB) 2 false 0;
   FSlot "uint16" 7 (Some 7) (TPrim FH) 1 false 0;
   FSlot "uint32" 8 (Some 8) (TPrim FI) 1 false 0;
   FSlot "uint64" 9 (Some 9) (TPrim FQ) 1 false 0;
   FSlot "float32" 10 (Some 10) TFloat32 1 false 0;
   FSlot "float64" 11 (Some 11) TFloat64 1 false 0;
   FSlot "text" 12 (Some 12) TText 0 false 0;
   FSlot "data" 13 (Some 13) TData 0 false 0;
   FSlot "list" 14 (Some 14) TAny 0 false 0;
   FSlot "enum" 15 (Some 15) (TPrim FH) 1 false 0;
   FSlot "struct" 16 (Some 16) TAny 0 false 0;
   FSlot "interface" 17 (Some 17) TVoid 0 false 0;
   FSlot "anyPointer" 18 (Some 18) TAny 0 false 0].
(** schema.py:2618-2696 *)
Definition c_Value_new : list string := [
  "def __new(void=_undefined, bool=_undefined, int8=_undefined, int16=_undefined, int32=_undefined, int64=_undefined, uint8=_undefined, uint16=_undefined, uint32=_undefined, uint64=_undefined, float32=_undefined, float64=_undefined, text=_undefined, data=_undefined, list=_undefined, enum=_undefined, struct=_undefined, interface=_undefined, anyPointer=_undefined):";
  "builder = _SegmentBuilder()";
  "pos = builder.allocate(24)";
  "anonymous__curtag = None";
  "if void is not _undefined:";
  "    anonymous__curtag = _check_tag(anonymous__curtag, _)";
  "    builder.write_int16(0, 0)";
  "if bool is not _undefined:";
  "    anonymous__curtag = _check_tag(anonymous__curtag, _)";
  "    builder.write_int16(0, 1)";
  "    builder.write_bool(2, 0, bool)";
  "if int8 is not _undefined:";
  "    anonymous__curtag = _check_tag(anonymous__curtag, _)";
  "    builder.write_int16(0, 2)";
  "    builder.write_int8(pos + 2, int8)";
  "if int16 is not _undefined:";
  "    anonymous__curtag = _check_tag(anonymous__curtag, _)";
  "    builder.write_int16(0, 3)";
  "    builder.write_int16(pos + 2, int16)";
  "if int32 is not _undefined:";
  "    anonymous__curtag = _check_tag(anonymous__curtag, _)";
  "    builder.write_int16(0, 4)";
  "    builder.write_int32(pos + 4, int32)";
  "if int64 is not _undefined:";
  "    anonymous__curtag = _check_tag(anonymous__curtag, _)";
  "    builder.write_int16(0, 5)";
  "    builder.write_int64(pos + 8, int64)";
  "if uint8 is not _undefined:";
  "    anonymous__curtag = _check_tag(anonymous__curtag, _)";
  "    builder.write_int16(0, 6)";
  "    builder.write_uint8(pos + 2, uint8)";
  "if uint16 is not _undefined:";
  "    anonymous__curtag = _check_tag(anonymous__curtag, _)";
  "    builder.write_int16(0, 7)";
  "    builder.write_uint16(pos + 2, uint16)";
  "if uint32 is not _undefined:";
  "    anonymous__curtag = _check_tag(anonymous__curtag, _)";
  "    builder.write_int16(0, 8)";
  "    builder.write_uint32(pos + 4, uint32)";
  "if uint64 is not _undefined:";
  "    anonymous__curtag = _check_tag(anonymous__curtag, _)";
  "    builder.write_int16(0, 9)";
  "    builder.write_uint64(pos + 8, uint64)";
  "if float32 is not _undefined:";
  "    anonymous__curtag = _check_tag(anonymous__curtag, _)";
  "    builder.write_int16(0, 10)";
  "    builder.write_float32(pos + 4, float32)";
  "if float64 is not _undefined:";
  "    anonymous__curtag = _check_tag(anonymous__curtag, _)";
  "    builder.write_int16(0, 11)";
  "    builder.write_float64(pos + 8, float64)";
  "if text is not _undefined:";
  "    anonymous__curtag = _check_tag(anonymous__curtag, _)";
  "    builder.write_int16(0, 12)";
  "    builder.alloc_text(pos + 16, text)";
  "if data is not _undefined:";
  "    anonymous__curtag = _check_tag(anonymous__curtag, _)";
  "    builder.write_int16(0, 13)";
  "    builder.alloc_data(pos + 16, data)";
  "if list is not _undefined:";
  "    anonymous__curtag = _check_tag(anonymous__curtag, _)";
  "    builder.write_int16(0, 14)";
  "    raise NotImplementedError(_)";
  "if enum is not _undefined:";
  "    anonymous__curtag = _check_tag(anonymous__curtag, _)";
  "    builder.write_int16(0, 15)";
  "    builder.write_uint16(pos + 2, enum)";
  "if struct is not _undefined:";
  "    anonymous__curtag = _check_tag(anonymous__curtag, _)";
  "    builder.write_int16(0, 16)";
  "    raise NotImplementedError(_)";
  "if interface is not _undefined:";
  "    anonymous__curtag = _check_tag(anonymous__curtag, _)";
  "    builder.write_int16(0, 17)";
  "if anyPointer is not _undefined:";
  "    anonymous__curtag = _check_tag(anonymous__curtag, _)";
  "    builder.write_int16(0, 18)";
  "    raise NotImplementedError(_)";
  "return builder.as_string()"].

(** schema.py:2833-2916 *)
Definition c_Annotation : struct_node := mksn 1 2 None
  [FSlot "id" 0 None (TPrim FQ) 0 false 0;
   FSlot "value" 1 None TStruct 0 false 0;
   FSlot "brand" 2 None TStruct 1 false 0].
(** schema.py:2898-2904 *)
Definition c_Annotation_new : list string := [
  "def __new(id=0, value=None, brand=None):";
  "builder = _SegmentBuilder()";
  "pos = builder.allocate(24)";
  "builder.write_uint64(pos + 0, id)";
  "builder.copy_from_struct(pos + 8, _, value)";
  "builder.copy_from_struct(pos + 16, _, brand)";
  "return builder.as_string()"].

(** schema.py:2920-2999 *)
Definition c_Brand_Scope : struct_node := mksn 2 1 (Some 4)
  [FSlot "scopeId" 0 None (TPrim FQ) 0 false 0;
   FSlot "bind" 1 (Some 0) (TList (ITStruct 1 1)) 0 false 0;
   FSlot "inherit" 2 (Some 1) TVoid 0 false 0].
(** schema.py:2963-2975 *)
Definition c_Brand_Scope_new : list string := [
  "def __new(scopeId=0, bind=_undefined, inherit=_undefined):";
  "builder = _SegmentBuilder()";
  "pos = builder.allocate(24)";
  "anonymous__curtag = None";
  "builder.write_uint64(pos + 0, scopeId)";
  "if bind is not _undefined:";
  "    anonymous__curtag = _check_tag(anonymous__curtag, _)";
  "    builder.write_int16(8, 0)";
  "    builder.copy_from_list(pos + 16, (ITStruct 1 1), bind)";
  "if inherit is not _undefined:";
  "    anonymous__curtag = _check_tag(anonymous__curtag, _)";
  "    builder.write_int16(8, 1)";
  "return builder.as_string()"].

(** schema.py:3003-3082 *)
Definition c_Brand_Binding : struct_node := mksn 1 1 (Some 0)
  [FSlot "unbound" 0 (Some 0) TVoid 0 false 0;
   FSlot "type" 1 (Some 1) TStruct 0 false 0].
(** schema.py:3048-3059 *)
Definition c_Brand_Binding_new : list string := [
  "def __new(unbound=_undefined, type=_undefined):";
  "builder = _SegmentBuilder()";
  "pos = builder.allocate(16)";
  "anonymous__curtag = None";
  "if unbound is not _undefined:";
  "    anonymous__curtag = _check_tag(anonymous__curtag, _)";
  "    builder.write_int16(0, 0)";
  "if type is not _undefined:";
  "    anonymous__curtag = _check_tag(anonymous__curtag, _)";
  "    builder.write_int16(0, 1)";
  "    builder.copy_from_struct(pos + 8, _, type)";
  "return builder.as_string()"].

(** schema.py:3086-3124 *)
Definition c_Brand : struct_node := mksn 0 1 None
  [FSlot "scopes" 0 None (TList (ITStruct 2 1)) 0 false 0].
(** schema.py:3110-3114 *)
Definition c_Brand_new : list string := [
  "def __new(scopes=None):";
  "builder = _SegmentBuilder()";
  "pos = builder.allocate(8)";
  "builder.copy_from_list(pos + 0, (ITStruct 2 1), scopes)";
  "return builder.as_string()"].

(** schema.py:3128-3177 *)
Definition c_CapnpVersion : struct_node := mksn 1 0 None
  [FSlot "major" 0 None (TPrim FH) 0 false 0;
   FSlot "minor" 1 None (TPrim FB) 2 false 0;
   FSlot "micro" 2 None (TPrim FB) 3 false 0].
(** schema.py:3159-3165 *)
Definition c_CapnpVersion_new : list string := [
  "def __new(major=0, minor=0, micro=0):";
  "builder = _SegmentBuilder()";
  "pos = builder.allocate(8)";
  "builder.write_uint16(pos + 0, major)";
  "builder.write_uint8(pos + 2, minor)";
  "builder.write_uint8(pos + 3, micro)";
  "return builder.as_string()"].

(** schema.py:3181-3224 *)
Definition c_CodeGeneratorRequest_RequestedFile_Import : struct_node := mksn 1 1 None
  [FSlot "id" 0 None (TPrim FQ) 0 false 0;
   FSlot "name" 1 None TText 0 false 0].
(** schema.py:3208-3213 *)
Definition c_CodeGeneratorRequest_RequestedFile_Import_new : list string := [
  "def __new(id=0, name=None):";
  "builder = _SegmentBuilder()";
  "pos = builder.allocate(16)";
  "builder.write_uint64(pos + 0, id)";
  "builder.alloc_text(pos + 8, name)";
  "return builder.as_string()"].

(** schema.py:3228-3289 *)
Definition c_CodeGeneratorRequest_RequestedFile : struct_node := mksn 1 2 None
  [FSlot "id" 0 None (TPrim FQ) 0 false 0;
   FSlot "filename" 1 None TText 0 false 0;
   FSlot "imports" 2 None (TList (ITStruct 1 1)) 1 false 0].
(** schema.py:3271-3277 *)
Definition c_CodeGeneratorRequest_RequestedFile_new : list string := [
  "def __new(id=0, filename=None, imports=None):";
  "builder = _SegmentBuilder()";
  "pos = builder.allocate(24)";
  "builder.write_uint64(pos + 0, id)";
  "builder.alloc_text(pos + 8, filename)";
  "builder.copy_from_list(pos + 16, (ITStruct 1 1), imports)";
  "return builder.as_string()"].

(** schema.py:3293-3391 *)
Definition c_CodeGeneratorRequest : struct_node := mksn 0 4 None
  [FSlot "nodes" 0 None (TList (ITStruct 5 6)) 0 false 0;
   FSlot "requestedFiles" 1 None (TList (ITStruct 1 2)) 1 false 0;
   FSlot "capnpVersion" 2 None TStruct 2 false 0;
   FSlot "sourceInfo" 3 None (TList (ITStruct 1 2)) 3 false 0].
(** schema.py:3371-3378 *)
Definition c_CodeGeneratorRequest_new : list string := [
  "def __new(nodes=None, requestedFiles=None, capnpVersion=None, sourceInfo=None):";
  "builder = _SegmentBuilder()";
  "pos = builder.allocate(32)";
  "builder.copy_from_list(pos + 0, (ITStruct 5 6), nodes)";
  "builder.copy_from_list(pos + 8, (ITStruct 1 2), requestedFiles)";
  "builder.copy_from_struct(pos + 16, _, capnpVersion)";
  "builder.copy_from_list(pos + 24, (ITStruct 1 2), sourceInfo)";
  "return builder.as_string()"].

(** annotate.py:123-186 *)
Definition c_Options : struct_node := mksn 1 0 None
  [FSlot "version_check" 0 None TEnum 0 true 2;
   FSlot "convert_case" 1 None TEnum 1 true 2;
   FSlot "text_type" 2 None TEnum 2 true 0;
   FSlot "include_reflection_data" 3 None TEnum 3 true 2].
(** annotate.py:162-173 *)
Definition c_Options_new : list string := [
  "def __new(version_check=2, convert_case=2, text_type=0, include_reflection_data=2):";
  "builder = _SegmentBuilder()";
  "pos = builder.allocate(8)";
  "version_check ^= 2";
  "builder.write_int16(pos + 0, version_check)";
  "convert_case ^= 2";
  "builder.write_int16(pos + 2, convert_case)";
  "text_type ^= 0";
  "builder.write_int16(pos + 4, text_type)";
  "include_reflection_data ^= 2";
  "builder.write_int16(pos + 6, include_reflection_data)";
  "return builder.as_string()"].

Definition classes : list (struct_node * list string) :=
  [(c_Field, c_Field_new);
   (c_Node_NestedNode, c_Node_NestedNode_new);
   (c_Node_Parameter, c_Node_Parameter_new);
   (c_Node_SourceInfo_Member, c_Node_SourceInfo_Member_new);
   (c_Node_SourceInfo, c_Node_SourceInfo_new);
   (c_Node, c_Node_new);
   (c_Enumerant, c_Enumerant_new);
   (c_Method, c_Method_new);
   (c_Superclass, c_Superclass_new);
   (c_Type, c_Type_new);
   (c_Value, c_Value_new);
   (c_Annotation, c_Annotation_new);
   (c_Brand_Scope, c_Brand_Scope_new);
   (c_Brand_Binding, c_Brand_Binding_new);
   (c_Brand, c_Brand_new);
   (c_CapnpVersion, c_CapnpVersion_new);
   (c_CodeGeneratorRequest_RequestedFile_Import, c_CodeGeneratorRequest_RequestedFile_Import_new);
   (c_CodeGeneratorRequest_RequestedFile, c_CodeGeneratorRequest_RequestedFile_new);
   (c_CodeGeneratorRequest, c_CodeGeneratorRequest_new);
   (c_Options, c_Options_new)].
