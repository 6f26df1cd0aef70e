(** The text of capnpy/schema.py and capnpy/annotate.py, word for word, and the
    nodes declared in them. Written by tools/gen_schemamodule.py. *)
From Verif Require Import Base Case Loader Ctor GenText SchemaText SchemaRepr ModuleText ReprText ReprTextSamples.
From Coq Require Import String.
From Coq Require Import Lists.List.
Local Open Scope string_scope.
Local Open Scope list_scope.
Local Open Scope Z_scope.

Definition the_struct (short name dotname : string) (id : Z) (group : bool) (r : struct_node * list string * list string) : struct_decl :=
  match r with (sn, caps, _) => mksd (lit short) (lit name) (lit dotname) id group sn (nfields (sn_fields sn) caps) None end.

Definition schema_nodes : list mnode := [
  NEnum (lit "ElementSize") (lit "ElementSize") 15102134695616452902 (map lit ["empty"; "bit"; "byte"; "twoBytes"; "fourBytes"; "eightBytes"; "pointer"; "inlineComposite"]);
  NStruct (the_struct "Field" "Field" "Field" 11145653318641710175 false r_Field) [
    NConst (lit "noDiscriminant") (lit "65535");
    NStruct (the_struct "slot" "Field_slot" "Field.slot" 14133145859926553711 true r_Field_slot) [];
    NStruct (the_struct "group" "Field_group" "Field.group" 14626792032033250577 true r_Field_group) [];
    NStruct (the_struct "ordinal" "Field_ordinal" "Field.ordinal" 13515537513213004774 true r_Field_ordinal) []];
  NStruct (the_struct "Node" "Node" "Node" 16610026722781537303 false r_Node) [
    NStruct (the_struct "struct" "Node_struct" "Node.struct" 11430331134483579957 true r_Node_struct) [];
    NStruct (the_struct "enum" "Node_enum" "Node.enum" 13063450714778629528 true r_Node_enum) [];
    NStruct (the_struct "interface" "Node_interface" "Node.interface" 16728431493453586831 true r_Node_interface) [];
    NStruct (the_struct "const" "Node_const" "Node.const" 12793219851699983392 true r_Node_const) [];
    NStruct (the_struct "annotation" "Node_annotation" "Node.annotation" 17011813041836786320 true r_Node_annotation) [];
    NStruct (the_struct "NestedNode" "Node_NestedNode" "Node.NestedNode" 16050641862814319170 false r_Node_NestedNode) [];
    NStruct (the_struct "Parameter" "Node_Parameter" "Node.Parameter" 13353766412138554289 false r_Node_Parameter) [];
    NStruct (the_struct "SourceInfo" "Node_SourceInfo" "Node.SourceInfo" 17549997658772559790 false r_Node_SourceInfo) [
      NStruct (the_struct "Member" "Node_SourceInfo_Member" "Node.SourceInfo.Member" 14031686161526562722 false r_Node_SourceInfo_Member) []]];
  NStruct (the_struct "Enumerant" "Enumerant" "Enumerant" 10919677598968879693 false r_Enumerant) [];
  NStruct (the_struct "Method" "Method" "Method" 10736806783679155584 false r_Method) [];
  NStruct (the_struct "Superclass" "Superclass" "Superclass" 12220001500510083064 false r_Superclass) [];
  NStruct (the_struct "Type" "Type" "Type" 15020482145304562784 false r_Type) [
    NStruct (the_struct "list" "Type_list" "Type.list" 9792858745991129751 true r_Type_list) [];
    NStruct (the_struct "enum" "Type_enum" "Type.enum" 11389172934837766057 true r_Type_enum) [];
    NStruct (the_struct "struct" "Type_struct" "Type.struct" 12410354185295152851 true r_Type_struct) [];
    NStruct (the_struct "interface" "Type_interface" "Type.interface" 17116997365232503999 true r_Type_interface) [];
    NStruct (the_struct "anyPointer" "Type_anyPointer" "Type.anyPointer" 14003731834718800369 true r_Type_anyPointer) [
      NStruct (the_struct "unconstrained" "Type_anyPointer_unconstrained" "Type.anyPointer.unconstrained" 10248890354574636630 true r_Type_anyPointer_unconstrained) [];
      NStruct (the_struct "parameter" "Type_anyPointer_parameter" "Type.anyPointer.parameter" 11372142272178113157 true r_Type_anyPointer_parameter) [];
      NStruct (the_struct "implicitMethodParameter" "Type_anyPointer_implicitMethodParameter" "Type.anyPointer.implicitMethodParameter" 13470206089842057844 true r_Type_anyPointer_implicitMethodParameter) []]];
  NStruct (the_struct "Value" "Value" "Value" 14853958794117909659 false r_Value) [];
  NStruct (the_struct "Annotation" "Annotation" "Annotation" 17422339044421236034 false r_Annotation) [];
  NStruct (the_struct "Brand" "Brand" "Brand" 10391024731148337707 false r_Brand) [
    NStruct (the_struct "Scope" "Brand_Scope" "Brand.Scope" 12382423449155627977 false r_Brand_Scope) [];
    NStruct (the_struct "Binding" "Brand_Binding" "Brand.Binding" 14439610327179913212 false r_Brand_Binding) []];
  NStruct (the_struct "CapnpVersion" "CapnpVersion" "CapnpVersion" 15590670654532458851 false r_CapnpVersion) [];
  NStruct (the_struct "CodeGeneratorRequest" "CodeGeneratorRequest" "CodeGeneratorRequest" 13818529054586492878 false r_CodeGeneratorRequest) [
    NStruct (the_struct "RequestedFile" "CodeGeneratorRequest_RequestedFile" "CodeGeneratorRequest.RequestedFile" 14981803260258615394 false r_CodeGeneratorRequest_RequestedFile) [
      NStruct (the_struct "Import" "CodeGeneratorRequest_RequestedFile_Import" "CodeGeneratorRequest.RequestedFile.Import" 12560611460656617445 false r_CodeGeneratorRequest_RequestedFile_Import) []]]].
Definition schema_header : header := mkheader (lit "2025-05-29 17:17") 12195682960037147353 (lit "0.10.2.dev5+g61130cf") (lit "1.0.1") false true None.
Definition schema_classes : list (string * table) := [("Field_slot", t_Field_slot_names); ("Field_group", t_Field_group_names); ("Field_ordinal", t_Field_ordinal_names); ("Field", t_Field_names); ("Node_struct", t_Node_struct_names); ("Node_enum", t_Node_enum_names); ("Node_interface", t_Node_interface_names); ("Node_const", t_Node_const_names); ("Node_annotation", t_Node_annotation_names); ("Node_NestedNode", t_Node_NestedNode_names); ("Node_Parameter", t_Node_Parameter_names); ("Node_SourceInfo_Member", t_Node_SourceInfo_Member_names); ("Node_SourceInfo", t_Node_SourceInfo_names); ("Node", t_Node_names); ("Enumerant", t_Enumerant_names); ("Method", t_Method_names); ("Superclass", t_Superclass_names); ("Type_list", t_Type_list_names); ("Type_enum", t_Type_enum_names); ("Type_struct", t_Type_struct_names); ("Type_interface", t_Type_interface_names); ("Type_anyPointer_unconstrained", t_Type_anyPointer_unconstrained_names); ("Type_anyPointer_parameter", t_Type_anyPointer_parameter_names); ("Type_anyPointer_implicitMethodParameter", t_Type_anyPointer_implicitMethodParameter_names); ("Type_anyPointer", t_Type_anyPointer_names); ("Type", t_Type_names); ("Value", t_Value_names); ("Annotation", t_Annotation_names); ("Brand_Scope", t_Brand_Scope_names); ("Brand_Binding", t_Brand_Binding_names); ("Brand", t_Brand_names); ("CapnpVersion", t_CapnpVersion_names); ("CodeGeneratorRequest_RequestedFile_Import", t_CodeGeneratorRequest_RequestedFile_Import_names); ("CodeGeneratorRequest_RequestedFile", t_CodeGeneratorRequest_RequestedFile_names); ("CodeGeneratorRequest", t_CodeGeneratorRequest_names)].
(** schema.py *)
Definition schema_py : list string :=
["# THIS FILE HAS BEEN GENERATED AUTOMATICALLY BY capnpy";
"# do not edit by hand";
"# generated on 2025-05-29 17:17";
"# cython: language_level=2";
"";
"from capnpy import ptr as _ptr";
"from capnpy.struct_ import Struct as _Struct";
"from capnpy.struct_ import check_tag as _check_tag";
"from capnpy.struct_ import undefined as _undefined";
"from capnpy.enum import enum as _enum, fill_enum as _fill_enum";
"from capnpy.enum import BaseEnum as _BaseEnum";
"from capnpy.type import Types as _Types";
"from capnpy.segment.segment import Segment as _Segment";
"from capnpy.segment.segment import MultiSegment as _MultiSegment";
"from capnpy.segment.builder import SegmentBuilder as _SegmentBuilder";
"from capnpy.list import List as _List";
"from capnpy.list import PrimitiveItemType as _PrimitiveItemType";
"from capnpy.list import BoolItemType as _BoolItemType";
"from capnpy.list import TextItemType as _TextItemType";
"from capnpy.list import TextUnicodeItemType as _TextUnicodeItemType";
"from capnpy.list import StructItemType as _StructItemType";
"from capnpy.list import EnumItemType as _EnumItemType";
"from capnpy.list import VoidItemType as _VoidItemType";
"from capnpy.list import ListItemType as _ListItemType";
"from capnpy.anypointer import AnyPointer as _AnyPointer";
"from capnpy.util import text_bytes_repr as _text_bytes_repr";
"from capnpy.util import text_unicode_repr as _text_unicode_repr";
"from capnpy.util import data_repr as _data_repr";
"from capnpy.util import float32_repr as _float32_repr";
"from capnpy.util import float64_repr as _float64_repr";
"from capnpy.util import extend_module_maybe as _extend_module_maybe";
"from capnpy.util import check_version as _check_version";
"from capnpy.util import encode_maybe as _encode_maybe";
"__capnpy_id__ = 0xa93fc509624c72d9";
"__capnpy_version__ = '0.10.2.dev5+g61130cf'";
"__capnproto_version__ = '1.0.1'";
"# schema compiled with --no-version-check, skipping the call to _check_version";
"# not including reflection data";
"";
"#### FORWARD DECLARATIONS ####";
"";
"class ElementSize(_BaseEnum):";
"    __capnpy_id__ = 15102134695616452902";
"    __members__ = ('empty', 'bit', 'byte', 'twoBytes', 'fourBytes', 'eightBytes', 'pointer', 'inlineComposite',)";
"    @staticmethod";
"    def _new(x):";
"        return ElementSize(x)";
"_fill_enum(ElementSize)";
"_ElementSize_list_item_type = _EnumItemType(ElementSize)";
"";
"class Field_slot(_Struct): pass";
"Field_slot.__name__ = 'Field.slot'";
"";
"class Field_group(_Struct): pass";
"Field_group.__name__ = 'Field.group'";
"";
"class Field_ordinal(_Struct): pass";
"Field_ordinal.__name__ = 'Field.ordinal'";
"class Field_ordinal__tag__(_BaseEnum):";
"    __capnpy_id__ = None";
"    __members__ = ('implicit', 'explicit',)";
"    @staticmethod";
"    def _new(x):";
"        return Field_ordinal__tag__(x)";
"_fill_enum(Field_ordinal__tag__)";
"";
"class Field(_Struct): pass";
"Field.__name__ = 'Field'";
"class Field__tag__(_BaseEnum):";
"    __capnpy_id__ = None";
"    __members__ = ('slot', 'group',)";
"    @staticmethod";
"    def _new(x):";
"        return Field__tag__(x)";
"_fill_enum(Field__tag__)";
"";
"class Node_struct(_Struct): pass";
"Node_struct.__name__ = 'Node.struct'";
"";
"class Node_enum(_Struct): pass";
"Node_enum.__name__ = 'Node.enum'";
"";
"class Node_interface(_Struct): pass";
"Node_interface.__name__ = 'Node.interface'";
"";
"class Node_const(_Struct): pass";
"Node_const.__name__ = 'Node.const'";
"";
"class Node_annotation(_Struct): pass";
"Node_annotation.__name__ = 'Node.annotation'";
"";
"class Node_NestedNode(_Struct): pass";
"Node_NestedNode.__name__ = 'Node.NestedNode'";
"";
"class Node_Parameter(_Struct): pass";
"Node_Parameter.__name__ = 'Node.Parameter'";
"";
"class Node_SourceInfo_Member(_Struct): pass";
"Node_SourceInfo_Member.__name__ = 'Node.SourceInfo.Member'";
"";
"class Node_SourceInfo(_Struct): pass";
"Node_SourceInfo.__name__ = 'Node.SourceInfo'";
"";
"class Node(_Struct): pass";
"Node.__name__ = 'Node'";
"class Node__tag__(_BaseEnum):";
"    __capnpy_id__ = None";
"    __members__ = ('file', 'struct', 'enum', 'interface', 'const', 'annotation',)";
"    @staticmethod";
"    def _new(x):";
"        return Node__tag__(x)";
"_fill_enum(Node__tag__)";
"";
"class Enumerant(_Struct): pass";
"Enumerant.__name__ = 'Enumerant'";
"";
"class Method(_Struct): pass";
"Method.__name__ = 'Method'";
"";
"class Superclass(_Struct): pass";
"Superclass.__name__ = 'Superclass'";
"";
"class Type_list(_Struct): pass";
"Type_list.__name__ = 'Type.list'";
"";
"class Type_enum(_Struct): pass";
"Type_enum.__name__ = 'Type.enum'";
"";
"class Type_struct(_Struct): pass";
"Type_struct.__name__ = 'Type.struct'";
"";
"class Type_interface(_Struct): pass";
"Type_interface.__name__ = 'Type.interface'";
"";
"class Type_anyPointer_unconstrained(_Struct): pass";
"Type_anyPointer_unconstrained.__name__ = 'Type.anyPointer.unconstrained'";
"class Type_anyPointer_unconstrained__tag__(_BaseEnum):";
"    __capnpy_id__ = None";
"    __members__ = ('anyKind', 'struct', 'list', 'capability',)";
"    @staticmethod";
"    def _new(x):";
"        return Type_anyPointer_unconstrained__tag__(x)";
"_fill_enum(Type_anyPointer_unconstrained__tag__)";
"";
"class Type_anyPointer_parameter(_Struct): pass";
"Type_anyPointer_parameter.__name__ = 'Type.anyPointer.parameter'";
"";
"class Type_anyPointer_implicitMethodParameter(_Struct): pass";
"Type_anyPointer_implicitMethodParameter.__name__ = 'Type.anyPointer.implicitMethodParameter'";
"";
"class Type_anyPointer(_Struct): pass";
"Type_anyPointer.__name__ = 'Type.anyPointer'";
"class Type_anyPointer__tag__(_BaseEnum):";
"    __capnpy_id__ = None";
"    __members__ = ('unconstrained', 'parameter', 'implicitMethodParameter',)";
"    @staticmethod";
"    def _new(x):";
"        return Type_anyPointer__tag__(x)";
"_fill_enum(Type_anyPointer__tag__)";
"";
"class Type(_Struct): pass";
"Type.__name__ = 'Type'";
"class Type__tag__(_BaseEnum):";
"    __capnpy_id__ = None";
"    __members__ = ('void', 'bool', 'int8', 'int16', 'int32', 'int64', 'uint8', 'uint16', 'uint32', 'uint64', 'float32', 'float64', 'text', 'data', 'list', 'enum', 'struct', 'interface', 'anyPointer',)";
"    @staticmethod";
"    def _new(x):";
"        return Type__tag__(x)";
"_fill_enum(Type__tag__)";
"";
"class Value(_Struct): pass";
"Value.__name__ = 'Value'";
"class Value__tag__(_BaseEnum):";
"    __capnpy_id__ = None";
"    __members__ = ('void', 'bool', 'int8', 'int16', 'int32', 'int64', 'uint8', 'uint16', 'uint32', 'uint64', 'float32', 'float64', 'text', 'data', 'list', 'enum', 'struct', 'interface', 'anyPointer',)";
"    @staticmethod";
"    def _new(x):";
"        return Value__tag__(x)";
"_fill_enum(Value__tag__)";
"";
"class Annotation(_Struct): pass";
"Annotation.__name__ = 'Annotation'";
"";
"class Brand_Scope(_Struct): pass";
"Brand_Scope.__name__ = 'Brand.Scope'";
"class Brand_Scope__tag__(_BaseEnum):";
"    __capnpy_id__ = None";
"    __members__ = ('bind', 'inherit',)";
"    @staticmethod";
"    def _new(x):";
"        return Brand_Scope__tag__(x)";
"_fill_enum(Brand_Scope__tag__)";
"";
"class Brand_Binding(_Struct): pass";
"Brand_Binding.__name__ = 'Brand.Binding'";
"class Brand_Binding__tag__(_BaseEnum):";
"    __capnpy_id__ = None";
"    __members__ = ('unbound', 'type',)";
"    @staticmethod";
"    def _new(x):";
"        return Brand_Binding__tag__(x)";
"_fill_enum(Brand_Binding__tag__)";
"";
"class Brand(_Struct): pass";
"Brand.__name__ = 'Brand'";
"";
"class CapnpVersion(_Struct): pass";
"CapnpVersion.__name__ = 'CapnpVersion'";
"";
"class CodeGeneratorRequest_RequestedFile_Import(_Struct): pass";
"CodeGeneratorRequest_RequestedFile_Import.__name__ = 'CodeGeneratorRequest.RequestedFile.Import'";
"";
"class CodeGeneratorRequest_RequestedFile(_Struct): pass";
"CodeGeneratorRequest_RequestedFile.__name__ = 'CodeGeneratorRequest.RequestedFile'";
"";
"class CodeGeneratorRequest(_Struct): pass";
"CodeGeneratorRequest.__name__ = 'CodeGeneratorRequest'";
"";
"";
"#### DEFINITIONS ####";
"";
"@Field_slot.__extend__";
"class Field_slot(_Struct):";
"    __capnpy_id__ = 0xc42305476bb4746f";
"    __static_data_size__ = 3";
"    __static_ptrs_size__ = 4";
"    ";
"    "] ++
t_Field_slot ++
snd r_Field_slot ++
["";
"_Field_slot_list_item_type = _StructItemType(Field_slot)";
"";
"@Field_group.__extend__";
"class Field_group(_Struct):";
"    __capnpy_id__ = 0xcafccddb68db1d11";
"    __static_data_size__ = 3";
"    __static_ptrs_size__ = 4";
"    ";
"    "] ++
t_Field_group ++
snd r_Field_group ++
["";
"_Field_group_list_item_type = _StructItemType(Field_group)";
"";
"@Field_ordinal.__extend__";
"class Field_ordinal(_Struct):";
"    __capnpy_id__ = 0xbb90d5c287870be6";
"    __static_data_size__ = 3";
"    __static_ptrs_size__ = 4";
"    ";
"    ";
"    __tag__ = Field_ordinal__tag__";
"    __tag_offset__ = 10";
"    "] ++
t_Field_ordinal ++
snd r_Field_ordinal ++
["";
"_Field_ordinal_list_item_type = _StructItemType(Field_ordinal)";
"";
"@Field.__extend__";
"class Field(_Struct):";
"    __capnpy_id__ = 0x9aad50a41f4af45f";
"    __static_data_size__ = 3";
"    __static_ptrs_size__ = 4";
"    ";
"    noDiscriminant = 65535";
"    ";
"    __tag__ = Field__tag__";
"    __tag_offset__ = 8";
"    "] ++
t_Field ++
snd r_Field ++
["";
"_Field_list_item_type = _StructItemType(Field)";
"";
"@Node_struct.__extend__";
"class Node_struct(_Struct):";
"    __capnpy_id__ = 0x9ea0b19b37fb4435";
"    __static_data_size__ = 5";
"    __static_ptrs_size__ = 6";
"    ";
"    "] ++
t_Node_struct ++
snd r_Node_struct ++
["";
"_Node_struct_list_item_type = _StructItemType(Node_struct)";
"";
"@Node_enum.__extend__";
"class Node_enum(_Struct):";
"    __capnpy_id__ = 0xb54ab3364333f598";
"    __static_data_size__ = 5";
"    __static_ptrs_size__ = 6";
"    ";
"    "] ++
t_Node_enum ++
snd r_Node_enum ++
["";
"_Node_enum_list_item_type = _StructItemType(Node_enum)";
"";
"@Node_interface.__extend__";
"class Node_interface(_Struct):";
"    __capnpy_id__ = 0xe82753cff0c2218f";
"    __static_data_size__ = 5";
"    __static_ptrs_size__ = 6";
"    ";
"    "] ++
t_Node_interface ++
snd r_Node_interface ++
["";
"_Node_interface_list_item_type = _StructItemType(Node_interface)";
"";
"@Node_const.__extend__";
"class Node_const(_Struct):";
"    __capnpy_id__ = 0xb18aa5ac7a0d9420";
"    __static_data_size__ = 5";
"    __static_ptrs_size__ = 6";
"    ";
"    "] ++
t_Node_const ++
snd r_Node_const ++
["";
"_Node_const_list_item_type = _StructItemType(Node_const)";
"";
"@Node_annotation.__extend__";
"class Node_annotation(_Struct):";
"    __capnpy_id__ = 0xec1619d4400a0290";
"    __static_data_size__ = 5";
"    __static_ptrs_size__ = 6";
"    ";
"    "] ++
t_Node_annotation ++
snd r_Node_annotation ++
["";
"_Node_annotation_list_item_type = _StructItemType(Node_annotation)";
"";
"@Node_NestedNode.__extend__";
"class Node_NestedNode(_Struct):";
"    __capnpy_id__ = 0xdebf55bbfa0fc242";
"    __static_data_size__ = 1";
"    __static_ptrs_size__ = 1";
"    ";
"    "] ++
t_Node_NestedNode ++
snd r_Node_NestedNode ++
["";
"_Node_NestedNode_list_item_type = _StructItemType(Node_NestedNode)";
"";
"@Node_Parameter.__extend__";
"class Node_Parameter(_Struct):";
"    __capnpy_id__ = 0xb9521bccf10fa3b1";
"    __static_data_size__ = 0";
"    __static_ptrs_size__ = 1";
"    ";
"    "] ++
t_Node_Parameter ++
snd r_Node_Parameter ++
["";
"_Node_Parameter_list_item_type = _StructItemType(Node_Parameter)";
"";
"@Node_SourceInfo_Member.__extend__";
"class Node_SourceInfo_Member(_Struct):";
"    __capnpy_id__ = 0xc2ba9038898e1fa2";
"    __static_data_size__ = 0";
"    __static_ptrs_size__ = 1";
"    ";
"    "] ++
t_Node_SourceInfo_Member ++
snd r_Node_SourceInfo_Member ++
["";
"_Node_SourceInfo_Member_list_item_type = _StructItemType(Node_SourceInfo_Member)";
"";
"@Node_SourceInfo.__extend__";
"class Node_SourceInfo(_Struct):";
"    __capnpy_id__ = 0xf38e1de3041357ae";
"    __static_data_size__ = 1";
"    __static_ptrs_size__ = 2";
"    ";
"    Member = Node_SourceInfo_Member";
"    "] ++
t_Node_SourceInfo ++
snd r_Node_SourceInfo ++
["";
"_Node_SourceInfo_list_item_type = _StructItemType(Node_SourceInfo)";
"";
"@Node.__extend__";
"class Node(_Struct):";
"    __capnpy_id__ = 0xe682ab4cf923a417";
"    __static_data_size__ = 5";
"    __static_ptrs_size__ = 6";
"    ";
"    NestedNode = Node_NestedNode";
"    Parameter = Node_Parameter";
"    SourceInfo = Node_SourceInfo";
"    ";
"    __tag__ = Node__tag__";
"    __tag_offset__ = 12";
"    "] ++
t_Node ++
snd r_Node ++
["";
"_Node_list_item_type = _StructItemType(Node)";
"";
"@Enumerant.__extend__";
"class Enumerant(_Struct):";
"    __capnpy_id__ = 0x978a7cebdc549a4d";
"    __static_data_size__ = 1";
"    __static_ptrs_size__ = 2";
"    ";
"    "] ++
t_Enumerant ++
snd r_Enumerant ++
["";
"_Enumerant_list_item_type = _StructItemType(Enumerant)";
"";
"@Method.__extend__";
"class Method(_Struct):";
"    __capnpy_id__ = 0x9500cce23b334d80";
"    __static_data_size__ = 3";
"    __static_ptrs_size__ = 5";
"    ";
"    "] ++
t_Method ++
snd r_Method ++
["";
"_Method_list_item_type = _StructItemType(Method)";
"";
"@Superclass.__extend__";
"class Superclass(_Struct):";
"    __capnpy_id__ = 0xa9962a9ed0a4d7f8";
"    __static_data_size__ = 1";
"    __static_ptrs_size__ = 1";
"    ";
"    "] ++
t_Superclass ++
snd r_Superclass ++
["";
"_Superclass_list_item_type = _StructItemType(Superclass)";
"";
"@Type_list.__extend__";
"class Type_list(_Struct):";
"    __capnpy_id__ = 0x87e739250a60ea97";
"    __static_data_size__ = 3";
"    __static_ptrs_size__ = 1";
"    ";
"    "] ++
t_Type_list ++
snd r_Type_list ++
["";
"_Type_list_list_item_type = _StructItemType(Type_list)";
"";
"@Type_enum.__extend__";
"class Type_enum(_Struct):";
"    __capnpy_id__ = 0x9e0e78711a7f87a9";
"    __static_data_size__ = 3";
"    __static_ptrs_size__ = 1";
"    ";
"    "] ++
t_Type_enum ++
snd r_Type_enum ++
["";
"_Type_enum_list_item_type = _StructItemType(Type_enum)";
"";
"@Type_struct.__extend__";
"class Type_struct(_Struct):";
"    __capnpy_id__ = 0xac3a6f60ef4cc6d3";
"    __static_data_size__ = 3";
"    __static_ptrs_size__ = 1";
"    ";
"    "] ++
t_Type_struct ++
snd r_Type_struct ++
["";
"_Type_struct_list_item_type = _StructItemType(Type_struct)";
"";
"@Type_interface.__extend__";
"class Type_interface(_Struct):";
"    __capnpy_id__ = 0xed8bca69f7fb0cbf";
"    __static_data_size__ = 3";
"    __static_ptrs_size__ = 1";
"    ";
"    "] ++
t_Type_interface ++
snd r_Type_interface ++
["";
"_Type_interface_list_item_type = _StructItemType(Type_interface)";
"";
"@Type_anyPointer_unconstrained.__extend__";
"class Type_anyPointer_unconstrained(_Struct):";
"    __capnpy_id__ = 0x8e3b5f79fe593656";
"    __static_data_size__ = 3";
"    __static_ptrs_size__ = 1";
"    ";
"    ";
"    __tag__ = Type_anyPointer_unconstrained__tag__";
"    __tag_offset__ = 10";
"    "] ++
t_Type_anyPointer_unconstrained ++
snd r_Type_anyPointer_unconstrained ++
["";
"_Type_anyPointer_unconstrained_list_item_type = _StructItemType(Type_anyPointer_unconstrained)";
"";
"@Type_anyPointer_parameter.__extend__";
"class Type_anyPointer_parameter(_Struct):";
"    __capnpy_id__ = 0x9dd1f724f4614a85";
"    __static_data_size__ = 3";
"    __static_ptrs_size__ = 1";
"    ";
"    "] ++
t_Type_anyPointer_parameter ++
snd r_Type_anyPointer_parameter ++
["";
"_Type_anyPointer_parameter_list_item_type = _StructItemType(Type_anyPointer_parameter)";
"";
"@Type_anyPointer_implicitMethodParameter.__extend__";
"class Type_anyPointer_implicitMethodParameter(_Struct):";
"    __capnpy_id__ = 0xbaefc9120c56e274";
"    __static_data_size__ = 3";
"    __static_ptrs_size__ = 1";
"    ";
"    "] ++
t_Type_anyPointer_implicitMethodParameter ++
snd r_Type_anyPointer_implicitMethodParameter ++
["";
"_Type_anyPointer_implicitMethodParameter_list_item_type = _StructItemType(Type_anyPointer_implicitMethodParameter)";
"";
"@Type_anyPointer.__extend__";
"class Type_anyPointer(_Struct):";
"    __capnpy_id__ = 0xc2573fe8a23e49f1";
"    __static_data_size__ = 3";
"    __static_ptrs_size__ = 1";
"    ";
"    ";
"    __tag__ = Type_anyPointer__tag__";
"    __tag_offset__ = 8";
"    "] ++
t_Type_anyPointer ++
snd r_Type_anyPointer ++
["";
"_Type_anyPointer_list_item_type = _StructItemType(Type_anyPointer)";
"";
"@Type.__extend__";
"class Type(_Struct):";
"    __capnpy_id__ = 0xd07378ede1f9cc60";
"    __static_data_size__ = 3";
"    __static_ptrs_size__ = 1";
"    ";
"    ";
"    __tag__ = Type__tag__";
"    __tag_offset__ = 0";
"    "] ++
t_Type ++
snd r_Type ++
["";
"_Type_list_item_type = _StructItemType(Type)";
"";
"@Value.__extend__";
"class Value(_Struct):";
"    __capnpy_id__ = 0xce23dcd2d7b00c9b";
"    __static_data_size__ = 2";
"    __static_ptrs_size__ = 1";
"    ";
"    ";
"    __tag__ = Value__tag__";
"    __tag_offset__ = 0";
"    "] ++
t_Value ++
snd r_Value ++
["";
"_Value_list_item_type = _StructItemType(Value)";
"";
"@Annotation.__extend__";
"class Annotation(_Struct):";
"    __capnpy_id__ = 0xf1c8950dab257542";
"    __static_data_size__ = 1";
"    __static_ptrs_size__ = 2";
"    ";
"    "] ++
t_Annotation ++
snd r_Annotation ++
["";
"_Annotation_list_item_type = _StructItemType(Annotation)";
"";
"@Brand_Scope.__extend__";
"class Brand_Scope(_Struct):";
"    __capnpy_id__ = 0xabd73485a9636bc9";
"    __static_data_size__ = 2";
"    __static_ptrs_size__ = 1";
"    ";
"    ";
"    __tag__ = Brand_Scope__tag__";
"    __tag_offset__ = 8";
"    "] ++
t_Brand_Scope ++
snd r_Brand_Scope ++
["";
"_Brand_Scope_list_item_type = _StructItemType(Brand_Scope)";
"";
"@Brand_Binding.__extend__";
"class Brand_Binding(_Struct):";
"    __capnpy_id__ = 0xc863cd16969ee7fc";
"    __static_data_size__ = 1";
"    __static_ptrs_size__ = 1";
"    ";
"    ";
"    __tag__ = Brand_Binding__tag__";
"    __tag_offset__ = 0";
"    "] ++
t_Brand_Binding ++
snd r_Brand_Binding ++
["";
"_Brand_Binding_list_item_type = _StructItemType(Brand_Binding)";
"";
"@Brand.__extend__";
"class Brand(_Struct):";
"    __capnpy_id__ = 0x903455f06065422b";
"    __static_data_size__ = 0";
"    __static_ptrs_size__ = 1";
"    ";
"    Scope = Brand_Scope";
"    Binding = Brand_Binding";
"    "] ++
t_Brand ++
snd r_Brand ++
["";
"_Brand_list_item_type = _StructItemType(Brand)";
"";
"@CapnpVersion.__extend__";
"class CapnpVersion(_Struct):";
"    __capnpy_id__ = 0xd85d305b7d839963";
"    __static_data_size__ = 1";
"    __static_ptrs_size__ = 0";
"    ";
"    "] ++
t_CapnpVersion ++
snd r_CapnpVersion ++
["";
"_CapnpVersion_list_item_type = _StructItemType(CapnpVersion)";
"";
"@CodeGeneratorRequest_RequestedFile_Import.__extend__";
"class CodeGeneratorRequest_RequestedFile_Import(_Struct):";
"    __capnpy_id__ = 0xae504193122357e5";
"    __static_data_size__ = 1";
"    __static_ptrs_size__ = 1";
"    ";
"    "] ++
t_CodeGeneratorRequest_RequestedFile_Import ++
snd r_CodeGeneratorRequest_RequestedFile_Import ++
["";
"_CodeGeneratorRequest_RequestedFile_Import_list_item_type = _StructItemType(CodeGeneratorRequest_RequestedFile_Import)";
"";
"@CodeGeneratorRequest_RequestedFile.__extend__";
"class CodeGeneratorRequest_RequestedFile(_Struct):";
"    __capnpy_id__ = 0xcfea0eb02e810062";
"    __static_data_size__ = 1";
"    __static_ptrs_size__ = 2";
"    ";
"    Import = CodeGeneratorRequest_RequestedFile_Import";
"    "] ++
t_CodeGeneratorRequest_RequestedFile ++
snd r_CodeGeneratorRequest_RequestedFile ++
["";
"_CodeGeneratorRequest_RequestedFile_list_item_type = _StructItemType(CodeGeneratorRequest_RequestedFile)";
"";
"@CodeGeneratorRequest.__extend__";
"class CodeGeneratorRequest(_Struct):";
"    __capnpy_id__ = 0xbfc546f6210ad7ce";
"    __static_data_size__ = 0";
"    __static_ptrs_size__ = 4";
"    ";
"    RequestedFile = CodeGeneratorRequest_RequestedFile";
"    "] ++
t_CodeGeneratorRequest ++
snd r_CodeGeneratorRequest ++
["";
"_CodeGeneratorRequest_list_item_type = _StructItemType(CodeGeneratorRequest)";
"";
"";
"_extend_module_maybe(globals(), modname=__name__)"].

Definition annotate_nodes : list mnode := [
  NAnn (lit "key") 14658097673689429382 [false; false; false; false; true; true; false; true; false; false; false; false];
  NAnn (lit "nullable") 11296117080722892765 [false; false; false; false; false; false; false; true; false; false; false; false];
  NAnn (lit "group") 12694526166034528397 [false; false; false; false; false; true; false; false; false; false; false; false];
  NEnum (lit "BoolOption") (lit "BoolOption") 16217900014262541116 (map lit ["false"; "true"; "notset"]);
  NEnum (lit "TextType") (lit "TextType") 15347717153063870105 (map lit ["notset"; "bytes"; "unicode"]);
  NStruct (the_struct "Options" "Options" "Options" 15245726544132748787 false r_Options) [];
  NAnn (lit "options") 13670177934128632979 [true; false; false; false; true; true; false; false; false; false; false; false]].
Definition annotate_header : header := mkheader (lit "2025-05-29 17:17") 13557174187791160608 (lit "0.10.2.dev5+g61130cf") (lit "1.0.1") false true None.
Definition annotate_classes : list (string * table) := [("Options", t_Options_names)].
(** annotate.py *)
Definition annotate_py : list string :=
["# THIS FILE HAS BEEN GENERATED AUTOMATICALLY BY capnpy";
"# do not edit by hand";
"# generated on 2025-05-29 17:17";
"# cython: language_level=2";
"";
"from capnpy import ptr as _ptr";
"from capnpy.struct_ import Struct as _Struct";
"from capnpy.struct_ import check_tag as _check_tag";
"from capnpy.struct_ import undefined as _undefined";
"from capnpy.enum import enum as _enum, fill_enum as _fill_enum";
"from capnpy.enum import BaseEnum as _BaseEnum";
"from capnpy.type import Types as _Types";
"from capnpy.segment.segment import Segment as _Segment";
"from capnpy.segment.segment import MultiSegment as _MultiSegment";
"from capnpy.segment.builder import SegmentBuilder as _SegmentBuilder";
"from capnpy.list import List as _List";
"from capnpy.list import PrimitiveItemType as _PrimitiveItemType";
"from capnpy.list import BoolItemType as _BoolItemType";
"from capnpy.list import TextItemType as _TextItemType";
"from capnpy.list import TextUnicodeItemType as _TextUnicodeItemType";
"from capnpy.list import StructItemType as _StructItemType";
"from capnpy.list import EnumItemType as _EnumItemType";
"from capnpy.list import VoidItemType as _VoidItemType";
"from capnpy.list import ListItemType as _ListItemType";
"from capnpy.anypointer import AnyPointer as _AnyPointer";
"from capnpy.util import text_bytes_repr as _text_bytes_repr";
"from capnpy.util import text_unicode_repr as _text_unicode_repr";
"from capnpy.util import data_repr as _data_repr";
"from capnpy.util import float32_repr as _float32_repr";
"from capnpy.util import float64_repr as _float64_repr";
"from capnpy.util import extend_module_maybe as _extend_module_maybe";
"from capnpy.util import check_version as _check_version";
"from capnpy.util import encode_maybe as _encode_maybe";
"__capnpy_id__ = 0xbc24c21845631520";
"__capnpy_version__ = '0.10.2.dev5+g61130cf'";
"__capnproto_version__ = '1.0.1'";
"# schema compiled with --no-version-check, skipping the call to _check_version";
"# not including reflection data";
"";
"#### FORWARD DECLARATIONS ####";
"";
"class key(object):";
"    __capnpy_id__ = 0xcb6c062c1b3cf586";
"    targets_file = False";
"    targets_const = False";
"    targets_enum = False";
"    targets_enumerant = False";
"    targets_struct = True";
"    targets_field = True";
"    targets_union = False";
"    targets_group = True";
"    targets_interface = False";
"    targets_method = False";
"    targets_param = False";
"    targets_annotation = False";
"class nullable(object):";
"    __capnpy_id__ = 0x9cc3dea2b1b5e7dd";
"    targets_file = False";
"    targets_const = False";
"    targets_enum = False";
"    targets_enumerant = False";
"    targets_struct = False";
"    targets_field = False";
"    targets_union = False";
"    targets_group = True";
"    targets_interface = False";
"    targets_method = False";
"    targets_param = False";
"    targets_annotation = False";
"class group(object):";
"    __capnpy_id__ = 0xb02c044a1e63b88d";
"    targets_file = False";
"    targets_const = False";
"    targets_enum = False";
"    targets_enumerant = False";
"    targets_struct = False";
"    targets_field = True";
"    targets_union = False";
"    targets_group = False";
"    targets_interface = False";
"    targets_method = False";
"    targets_param = False";
"    targets_annotation = False";
"class BoolOption(_BaseEnum):";
"    __capnpy_id__ = 16217900014262541116";
"    __members__ = ('false', 'true', 'notset',)";
"    @staticmethod";
"    def _new(x):";
"        return BoolOption(x)";
"_fill_enum(BoolOption)";
"_BoolOption_list_item_type = _EnumItemType(BoolOption)";
"";
"class TextType(_BaseEnum):";
"    __capnpy_id__ = 15347717153063870105";
"    __members__ = ('notset', 'bytes', 'unicode',)";
"    @staticmethod";
"    def _new(x):";
"        return TextType(x)";
"_fill_enum(TextType)";
"_TextType_list_item_type = _EnumItemType(TextType)";
"";
"class Options(_Struct): pass";
"Options.__name__ = 'Options'";
"";
"class options(object):";
"    __capnpy_id__ = 0xbdb63a67441ed493";
"    targets_file = True";
"    targets_const = False";
"    targets_enum = False";
"    targets_enumerant = False";
"    targets_struct = True";
"    targets_field = True";
"    targets_union = False";
"    targets_group = False";
"    targets_interface = False";
"    targets_method = False";
"    targets_param = False";
"    targets_annotation = False";
"";
"#### DEFINITIONS ####";
"";
"@Options.__extend__";
"class Options(_Struct):";
"    __capnpy_id__ = 0xd393b3843dc6b5f3";
"    __static_data_size__ = 1";
"    __static_ptrs_size__ = 0";
"    ";
"    "] ++
t_Options ++
snd r_Options ++
["";
"_Options_list_item_type = _StructItemType(Options)";
"";
"";
"_extend_module_maybe(globals(), modname=__name__)"].
