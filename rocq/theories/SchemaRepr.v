(** The text of shortrepr() in the classes of capnpy/schema.py and
    capnpy/annotate.py, word for word, with the layout of SchemaText.v and the
    names of the fields in the schema. Written by tools/gen_schematext.py. *)
From Verif Require Import Base Case Ctor SchemaText.
From Coq Require Import String.
From Coq Require Import Lists.List.
Local Open Scope string_scope.
Local Open Scope list_scope.
Local Open Scope Z_scope.

(** schema.py:295-301 *)
Definition r_Field_slot : struct_node * list string * list string := (t_Field_slot_node,
  ["offset"; "type"; "defaultValue"; "hadExplicitDefault"], [
"    def shortrepr(self):";
"        parts = []";
"        parts.append(""offset = %s"" % self.offset)";
"        if self.has_type(): parts.append(""type = %s"" % self.get_type().shortrepr())";
"        if self.has_defaultValue(): parts.append(""defaultValue = %s"" % self.get_defaultValue().shortrepr())";
"        parts.append(""hadExplicitDefault = %s"" % str(self.hadExplicitDefault).lower())";
"        return ""(%s)"" % "", "".join(parts)"]).

(** schema.py:320-323 *)
Definition r_Field_group : struct_node * list string * list string := (t_Field_group_node,
  ["typeId"], [
"    def shortrepr(self):";
"        parts = []";
"        parts.append(""typeId = %s"" % self.typeId)";
"        return ""(%s)"" % "", "".join(parts)"]).

(** schema.py:355-359 *)
Definition r_Field_ordinal : struct_node * list string * list string := (t_Field_ordinal_node,
  ["implicit"; "explicit"], [
"    def shortrepr(self):";
"        parts = []";
"        if self.is_implicit(): parts.append(""implicit = %s"" % ""void"")";
"        if self.is_explicit(): parts.append(""explicit = %s"" % self.explicit)";
"        return ""(%s)"" % "", "".join(parts)"]).

(** schema.py:506-515 *)
Definition r_Field : struct_node * list string * list string := (t_Field_node,
  ["name"; "codeOrder"; "annotations"; "discriminantValue"; "slot"; "group"; "ordinal"], [
"    def shortrepr(self):";
"        parts = []";
"        if self.has_name(): parts.append(""name = %s"" % _text_bytes_repr(self.get_name()))";
"        parts.append(""codeOrder = %s"" % self.codeOrder)";
"        if self.has_annotations(): parts.append(""annotations = %s"" % self.get_annotations().shortrepr())";
"        parts.append(""discriminantValue = %s"" % self.discriminantValue)";
"        if self.is_slot(): parts.append(""slot = %s"" % self.slot.shortrepr())";
"        if self.is_group(): parts.append(""group = %s"" % self.group.shortrepr())";
"        parts.append(""ordinal = %s"" % self.ordinal.shortrepr())";
"        return ""(%s)"" % "", "".join(parts)"]).

(** schema.py:589-598 *)
Definition r_Node_struct : struct_node * list string * list string := (t_Node_struct_node,
  ["dataWordCount"; "pointerCount"; "preferredListEncoding"; "isGroup"; "discriminantCount"; "discriminantOffset"; "fields"], [
"    def shortrepr(self):";
"        parts = []";
"        parts.append(""dataWordCount = %s"" % self.dataWordCount)";
"        parts.append(""pointerCount = %s"" % self.pointerCount)";
"        parts.append(""preferredListEncoding = %s"" % self.preferredListEncoding)";
"        parts.append(""isGroup = %s"" % str(self.isGroup).lower())";
"        parts.append(""discriminantCount = %s"" % self.discriminantCount)";
"        parts.append(""discriminantOffset = %s"" % self.discriminantOffset)";
"        if self.has_fields(): parts.append(""fields = %s"" % self.get_fields().shortrepr())";
"        return ""(%s)"" % "", "".join(parts)"]).

(** schema.py:624-627 *)
Definition r_Node_enum : struct_node * list string * list string := (t_Node_enum_node,
  ["enumerants"], [
"    def shortrepr(self):";
"        parts = []";
"        if self.has_enumerants(): parts.append(""enumerants = %s"" % self.get_enumerants().shortrepr())";
"        return ""(%s)"" % "", "".join(parts)"]).

(** schema.py:668-672 *)
Definition r_Node_interface : struct_node * list string * list string := (t_Node_interface_node,
  ["methods"; "superclasses"], [
"    def shortrepr(self):";
"        parts = []";
"        if self.has_methods(): parts.append(""methods = %s"" % self.get_methods().shortrepr())";
"        if self.has_superclasses(): parts.append(""superclasses = %s"" % self.get_superclasses().shortrepr())";
"        return ""(%s)"" % "", "".join(parts)"]).

(** schema.py:733-737 *)
Definition r_Node_const : struct_node * list string * list string := (t_Node_const_node,
  ["type"; "value"], [
"    def shortrepr(self):";
"        parts = []";
"        if self.has_type(): parts.append(""type = %s"" % self.get_type().shortrepr())";
"        if self.has_value(): parts.append(""value = %s"" % self.get_value().shortrepr())";
"        return ""(%s)"" % "", "".join(parts)"]).

(** schema.py:869-884 *)
Definition r_Node_annotation : struct_node * list string * list string := (t_Node_annotation_node,
  ["type"; "targetsFile"; "targetsConst"; "targetsEnum"; "targetsEnumerant"; "targetsStruct"; "targetsField"; "targetsUnion"; "targetsGroup"; "targetsInterface"; "targetsMethod"; "targetsParam"; "targetsAnnotation"], [
"    def shortrepr(self):";
"        parts = []";
"        if self.has_type(): parts.append(""type = %s"" % self.get_type().shortrepr())";
"        parts.append(""targetsFile = %s"" % str(self.targetsFile).lower())";
"        parts.append(""targetsConst = %s"" % str(self.targetsConst).lower())";
"        parts.append(""targetsEnum = %s"" % str(self.targetsEnum).lower())";
"        parts.append(""targetsEnumerant = %s"" % str(self.targetsEnumerant).lower())";
"        parts.append(""targetsStruct = %s"" % str(self.targetsStruct).lower())";
"        parts.append(""targetsField = %s"" % str(self.targetsField).lower())";
"        parts.append(""targetsUnion = %s"" % str(self.targetsUnion).lower())";
"        parts.append(""targetsGroup = %s"" % str(self.targetsGroup).lower())";
"        parts.append(""targetsInterface = %s"" % str(self.targetsInterface).lower())";
"        parts.append(""targetsMethod = %s"" % str(self.targetsMethod).lower())";
"        parts.append(""targetsParam = %s"" % str(self.targetsParam).lower())";
"        parts.append(""targetsAnnotation = %s"" % str(self.targetsAnnotation).lower())";
"        return ""(%s)"" % "", "".join(parts)"]).

(** schema.py:927-931 *)
Definition r_Node_NestedNode : struct_node * list string * list string := (t_Node_NestedNode_node,
  ["name"; "id"], [
"    def shortrepr(self):";
"        parts = []";
"        if self.has_name(): parts.append(""name = %s"" % _text_bytes_repr(self.get_name()))";
"        parts.append(""id = %s"" % self.id)";
"        return ""(%s)"" % "", "".join(parts)"]).

(** schema.py:965-968 *)
Definition r_Node_Parameter : struct_node * list string * list string := (t_Node_Parameter_node,
  ["name"], [
"    def shortrepr(self):";
"        parts = []";
"        if self.has_name(): parts.append(""name = %s"" % _text_bytes_repr(self.get_name()))";
"        return ""(%s)"" % "", "".join(parts)"]).

(** schema.py:1002-1005 *)
Definition r_Node_SourceInfo_Member : struct_node * list string * list string := (t_Node_SourceInfo_Member_node,
  ["docComment"], [
"    def shortrepr(self):";
"        parts = []";
"        if self.has_docComment(): parts.append(""docComment = %s"" % _text_bytes_repr(self.get_docComment()))";
"        return ""(%s)"" % "", "".join(parts)"]).

(** schema.py:1065-1070 *)
Definition r_Node_SourceInfo : struct_node * list string * list string := (t_Node_SourceInfo_node,
  ["id"; "docComment"; "members"], [
"    def shortrepr(self):";
"        parts = []";
"        parts.append(""id = %s"" % self.id)";
"        if self.has_docComment(): parts.append(""docComment = %s"" % _text_bytes_repr(self.get_docComment()))";
"        if self.has_members(): parts.append(""members = %s"" % self.get_members().shortrepr())";
"        return ""(%s)"" % "", "".join(parts)"]).

(** schema.py:1351-1367 *)
Definition r_Node : struct_node * list string * list string := (t_Node_node,
  ["id"; "displayName"; "displayNamePrefixLength"; "scopeId"; "nestedNodes"; "annotations"; "file"; "struct"; "enum"; "interface"; "const"; "annotation"; "parameters"; "isGeneric"], [
"    def shortrepr(self):";
"        parts = []";
"        parts.append(""id = %s"" % self.id)";
"        if self.has_displayName(): parts.append(""displayName = %s"" % _text_bytes_repr(self.get_displayName()))";
"        parts.append(""displayNamePrefixLength = %s"" % self.displayNamePrefixLength)";
"        parts.append(""scopeId = %s"" % self.scopeId)";
"        if self.has_nestedNodes(): parts.append(""nestedNodes = %s"" % self.get_nestedNodes().shortrepr())";
"        if self.has_annotations(): parts.append(""annotations = %s"" % self.get_annotations().shortrepr())";
"        if self.is_file(): parts.append(""file = %s"" % ""void"")";
"        if self.is_struct(): parts.append(""struct = %s"" % self.struct.shortrepr())";
"        if self.is_enum(): parts.append(""enum = %s"" % self.enum.shortrepr())";
"        if self.is_interface(): parts.append(""interface = %s"" % self.interface.shortrepr())";
"        if self.is_const(): parts.append(""const = %s"" % self.const.shortrepr())";
"        if self.is_annotation(): parts.append(""annotation = %s"" % self.annotation.shortrepr())";
"        if self.has_parameters(): parts.append(""parameters = %s"" % self.get_parameters().shortrepr())";
"        parts.append(""isGeneric = %s"" % str(self.isGeneric).lower())";
"        return ""(%s)"" % "", "".join(parts)"]).

(** schema.py:1426-1431 *)
Definition r_Enumerant : struct_node * list string * list string := (t_Enumerant_node,
  ["name"; "codeOrder"; "annotations"], [
"    def shortrepr(self):";
"        parts = []";
"        if self.has_name(): parts.append(""name = %s"" % _text_bytes_repr(self.get_name()))";
"        parts.append(""codeOrder = %s"" % self.codeOrder)";
"        if self.has_annotations(): parts.append(""annotations = %s"" % self.get_annotations().shortrepr())";
"        return ""(%s)"" % "", "".join(parts)"]).

(** schema.py:1576-1586 *)
Definition r_Method : struct_node * list string * list string := (t_Method_node,
  ["name"; "codeOrder"; "paramStructType"; "resultStructType"; "annotations"; "paramBrand"; "resultBrand"; "implicitParameters"], [
"    def shortrepr(self):";
"        parts = []";
"        if self.has_name(): parts.append(""name = %s"" % _text_bytes_repr(self.get_name()))";
"        parts.append(""codeOrder = %s"" % self.codeOrder)";
"        parts.append(""paramStructType = %s"" % self.paramStructType)";
"        parts.append(""resultStructType = %s"" % self.resultStructType)";
"        if self.has_annotations(): parts.append(""annotations = %s"" % self.get_annotations().shortrepr())";
"        if self.has_paramBrand(): parts.append(""paramBrand = %s"" % self.get_paramBrand().shortrepr())";
"        if self.has_resultBrand(): parts.append(""resultBrand = %s"" % self.get_resultBrand().shortrepr())";
"        if self.has_implicitParameters(): parts.append(""implicitParameters = %s"" % self.get_implicitParameters().shortrepr())";
"        return ""(%s)"" % "", "".join(parts)"]).

(** schema.py:1642-1646 *)
Definition r_Superclass : struct_node * list string * list string := (t_Superclass_node,
  ["id"; "brand"], [
"    def shortrepr(self):";
"        parts = []";
"        parts.append(""id = %s"" % self.id)";
"        if self.has_brand(): parts.append(""brand = %s"" % self.get_brand().shortrepr())";
"        return ""(%s)"" % "", "".join(parts)"]).

(** schema.py:1682-1685 *)
Definition r_Type_list : struct_node * list string * list string := (t_Type_list_node,
  ["elementType"], [
"    def shortrepr(self):";
"        parts = []";
"        if self.has_elementType(): parts.append(""elementType = %s"" % self.get_elementType().shortrepr())";
"        return ""(%s)"" % "", "".join(parts)"]).

(** schema.py:1729-1733 *)
Definition r_Type_enum : struct_node * list string * list string := (t_Type_enum_node,
  ["typeId"; "brand"], [
"    def shortrepr(self):";
"        parts = []";
"        parts.append(""typeId = %s"" % self.typeId)";
"        if self.has_brand(): parts.append(""brand = %s"" % self.get_brand().shortrepr())";
"        return ""(%s)"" % "", "".join(parts)"]).

(** schema.py:1777-1781 *)
Definition r_Type_struct : struct_node * list string * list string := (t_Type_struct_node,
  ["typeId"; "brand"], [
"    def shortrepr(self):";
"        parts = []";
"        parts.append(""typeId = %s"" % self.typeId)";
"        if self.has_brand(): parts.append(""brand = %s"" % self.get_brand().shortrepr())";
"        return ""(%s)"" % "", "".join(parts)"]).

(** schema.py:1825-1829 *)
Definition r_Type_interface : struct_node * list string * list string := (t_Type_interface_node,
  ["typeId"; "brand"], [
"    def shortrepr(self):";
"        parts = []";
"        parts.append(""typeId = %s"" % self.typeId)";
"        if self.has_brand(): parts.append(""brand = %s"" % self.get_brand().shortrepr())";
"        return ""(%s)"" % "", "".join(parts)"]).

(** schema.py:1872-1878 *)
Definition r_Type_anyPointer_unconstrained : struct_node * list string * list string := (t_Type_anyPointer_unconstrained_node,
  ["anyKind"; "struct"; "list"; "capability"], [
"    def shortrepr(self):";
"        parts = []";
"        if self.is_anyKind(): parts.append(""anyKind = %s"" % ""void"")";
"        if self.is_struct(): parts.append(""struct = %s"" % ""void"")";
"        if self.is_list(): parts.append(""list = %s"" % ""void"")";
"        if self.is_capability(): parts.append(""capability = %s"" % ""void"")";
"        return ""(%s)"" % "", "".join(parts)"]).

(** schema.py:1905-1909 *)
Definition r_Type_anyPointer_parameter : struct_node * list string * list string := (t_Type_anyPointer_parameter_node,
  ["scopeId"; "parameterIndex"], [
"    def shortrepr(self):";
"        parts = []";
"        parts.append(""scopeId = %s"" % self.scopeId)";
"        parts.append(""parameterIndex = %s"" % self.parameterIndex)";
"        return ""(%s)"" % "", "".join(parts)"]).

(** schema.py:1928-1931 *)
Definition r_Type_anyPointer_implicitMethodParameter : struct_node * list string * list string := (t_Type_anyPointer_implicitMethodParameter_node,
  ["parameterIndex"], [
"    def shortrepr(self):";
"        parts = []";
"        parts.append(""parameterIndex = %s"" % self.parameterIndex)";
"        return ""(%s)"" % "", "".join(parts)"]).

(** schema.py:1988-1993 *)
Definition r_Type_anyPointer : struct_node * list string * list string := (t_Type_anyPointer_node,
  ["unconstrained"; "parameter"; "implicitMethodParameter"], [
"    def shortrepr(self):";
"        parts = []";
"        if self.is_unconstrained(): parts.append(""unconstrained = %s"" % self.unconstrained.shortrepr())";
"        if self.is_parameter(): parts.append(""parameter = %s"" % self.parameter.shortrepr())";
"        if self.is_implicitMethodParameter(): parts.append(""implicitMethodParameter = %s"" % self.implicitMethodParameter.shortrepr())";
"        return ""(%s)"" % "", "".join(parts)"]).

(** schema.py:2380-2401 *)
Definition r_Type : struct_node * list string * list string := (t_Type_node,
  ["void"; "bool"; "int8"; "int16"; "int32"; "int64"; "uint8"; "uint16"; "uint32"; "uint64"; "float32"; "float64"; "text"; "data"; "list"; "enum"; "struct"; "interface"; "anyPointer"], [
"    def shortrepr(self):";
"        parts = []";
"        if self.is_void(): parts.append(""void = %s"" % ""void"")";
"        if self.is_bool(): parts.append(""bool = %s"" % ""void"")";
"        if self.is_int8(): parts.append(""int8 = %s"" % ""void"")";
"        if self.is_int16(): parts.append(""int16 = %s"" % ""void"")";
"        if self.is_int32(): parts.append(""int32 = %s"" % ""void"")";
"        if self.is_int64(): parts.append(""int64 = %s"" % ""void"")";
"        if self.is_uint8(): parts.append(""uint8 = %s"" % ""void"")";
"        if self.is_uint16(): parts.append(""uint16 = %s"" % ""void"")";
"        if self.is_uint32(): parts.append(""uint32 = %s"" % ""void"")";
"        if self.is_uint64(): parts.append(""uint64 = %s"" % ""void"")";
"        if self.is_float32(): parts.append(""float32 = %s"" % ""void"")";
"        if self.is_float64(): parts.append(""float64 = %s"" % ""void"")";
"        if self.is_text(): parts.append(""text = %s"" % ""void"")";
"        if self.is_data(): parts.append(""data = %s"" % ""void"")";
"        if self.is_list(): parts.append(""list = %s"" % self.list.shortrepr())";
"        if self.is_enum(): parts.append(""enum = %s"" % self.enum.shortrepr())";
"        if self.is_struct(): parts.append(""struct = %s"" % self.struct.shortrepr())";
"        if self.is_interface(): parts.append(""interface = %s"" % self.interface.shortrepr())";
"        if self.is_anyPointer(): parts.append(""anyPointer = %s"" % self.anyPointer.shortrepr())";
"        return ""(%s)"" % "", "".join(parts)"]).

(** schema.py:2797-2828 *)
Definition r_Value : struct_node * list string * list string := (t_Value_node,
  ["void"; "bool"; "int8"; "int16"; "int32"; "int64"; "uint8"; "uint16"; "uint32"; "uint64"; "float32"; "float64"; "text"; "data"; "list"; "enum"; "struct"; "interface"; "anyPointer"], [
"    def shortrepr(self):";
"        parts = []";
"        if self.is_void(): parts.append(""void = %s"" % ""void"")";
"        if self.is_bool(): parts.append(""bool = %s"" % str(self.bool).lower())";
"        if self.is_int8(): parts.append(""int8 = %s"" % self.int8)";
"        if self.is_int16(): parts.append(""int16 = %s"" % self.int16)";
"        if self.is_int32(): parts.append(""int32 = %s"" % self.int32)";
"        if self.is_int64(): parts.append(""int64 = %s"" % self.int64)";
"        if self.is_uint8(): parts.append(""uint8 = %s"" % self.uint8)";
"        if self.is_uint16(): parts.append(""uint16 = %s"" % self.uint16)";
"        if self.is_uint32(): parts.append(""uint32 = %s"" % self.uint32)";
"        if self.is_uint64(): parts.append(""uint64 = %s"" % self.uint64)";
"        if self.is_float32(): parts.append(""float32 = %s"" % _float32_repr(self.float32))";
"        if self.is_float64(): parts.append(""float64 = %s"" % _float64_repr(self.float64))";
"        if self.is_text() and (self.has_text() or";
"                                  not False):";
"            parts.append(""text = %s"" % _text_bytes_repr(self.get_text()))";
"        if self.is_data() and (self.has_data() or";
"                                  not False):";
"            parts.append(""data = %s"" % _data_repr(self.get_data()))";
"        if self.is_list() and (self.has_list() or";
"                                  not False):";
"            parts.append(""list = %s"" % ""???"")";
"        if self.is_enum(): parts.append(""enum = %s"" % self.enum)";
"        if self.is_struct() and (self.has_struct() or";
"                                  not False):";
"            parts.append(""struct = %s"" % ""???"")";
"        if self.is_interface(): parts.append(""interface = %s"" % ""void"")";
"        if self.is_anyPointer() and (self.has_anyPointer() or";
"                                  not False):";
"            parts.append(""anyPointer = %s"" % ""???"")";
"        return ""(%s)"" % "", "".join(parts)"]).

(** schema.py:2910-2915 *)
Definition r_Annotation : struct_node * list string * list string := (t_Annotation_node,
  ["id"; "value"; "brand"], [
"    def shortrepr(self):";
"        parts = []";
"        parts.append(""id = %s"" % self.id)";
"        if self.has_value(): parts.append(""value = %s"" % self.get_value().shortrepr())";
"        if self.has_brand(): parts.append(""brand = %s"" % self.get_brand().shortrepr())";
"        return ""(%s)"" % "", "".join(parts)"]).

(** schema.py:2991-2998 *)
Definition r_Brand_Scope : struct_node * list string * list string := (t_Brand_Scope_node,
  ["scopeId"; "bind"; "inherit"], [
"    def shortrepr(self):";
"        parts = []";
"        parts.append(""scopeId = %s"" % self.scopeId)";
"        if self.is_bind() and (self.has_bind() or";
"                                  not True):";
"            parts.append(""bind = %s"" % self.get_bind().shortrepr())";
"        if self.is_inherit(): parts.append(""inherit = %s"" % ""void"")";
"        return ""(%s)"" % "", "".join(parts)"]).

(** schema.py:3075-3081 *)
Definition r_Brand_Binding : struct_node * list string * list string := (t_Brand_Binding_node,
  ["unbound"; "type"], [
"    def shortrepr(self):";
"        parts = []";
"        if self.is_unbound(): parts.append(""unbound = %s"" % ""void"")";
"        if self.is_type() and (self.has_type() or";
"                                  not False):";
"            parts.append(""type = %s"" % self.get_type().shortrepr())";
"        return ""(%s)"" % "", "".join(parts)"]).

(** schema.py:3120-3123 *)
Definition r_Brand : struct_node * list string * list string := (t_Brand_node,
  ["scopes"], [
"    def shortrepr(self):";
"        parts = []";
"        if self.has_scopes(): parts.append(""scopes = %s"" % self.get_scopes().shortrepr())";
"        return ""(%s)"" % "", "".join(parts)"]).

(** schema.py:3171-3176 *)
Definition r_CapnpVersion : struct_node * list string * list string := (t_CapnpVersion_node,
  ["major"; "minor"; "micro"], [
"    def shortrepr(self):";
"        parts = []";
"        parts.append(""major = %s"" % self.major)";
"        parts.append(""minor = %s"" % self.minor)";
"        parts.append(""micro = %s"" % self.micro)";
"        return ""(%s)"" % "", "".join(parts)"]).

(** schema.py:3219-3223 *)
Definition r_CodeGeneratorRequest_RequestedFile_Import : struct_node * list string * list string := (t_CodeGeneratorRequest_RequestedFile_Import_node,
  ["id"; "name"], [
"    def shortrepr(self):";
"        parts = []";
"        parts.append(""id = %s"" % self.id)";
"        if self.has_name(): parts.append(""name = %s"" % _text_bytes_repr(self.get_name()))";
"        return ""(%s)"" % "", "".join(parts)"]).

(** schema.py:3283-3288 *)
Definition r_CodeGeneratorRequest_RequestedFile : struct_node * list string * list string := (t_CodeGeneratorRequest_RequestedFile_node,
  ["id"; "filename"; "imports"], [
"    def shortrepr(self):";
"        parts = []";
"        parts.append(""id = %s"" % self.id)";
"        if self.has_filename(): parts.append(""filename = %s"" % _text_bytes_repr(self.get_filename()))";
"        if self.has_imports(): parts.append(""imports = %s"" % self.get_imports().shortrepr())";
"        return ""(%s)"" % "", "".join(parts)"]).

(** schema.py:3384-3390 *)
Definition r_CodeGeneratorRequest : struct_node * list string * list string := (t_CodeGeneratorRequest_node,
  ["nodes"; "requestedFiles"; "capnpVersion"; "sourceInfo"], [
"    def shortrepr(self):";
"        parts = []";
"        if self.has_nodes(): parts.append(""nodes = %s"" % self.get_nodes().shortrepr())";
"        if self.has_requestedFiles(): parts.append(""requestedFiles = %s"" % self.get_requestedFiles().shortrepr())";
"        if self.has_capnpVersion(): parts.append(""capnpVersion = %s"" % self.get_capnpVersion().shortrepr())";
"        if self.has_sourceInfo(): parts.append(""sourceInfo = %s"" % self.get_sourceInfo().shortrepr())";
"        return ""(%s)"" % "", "".join(parts)"]).

(** annotate.py:179-185 *)
Definition r_Options : struct_node * list string * list string := (t_Options_node,
  ["versionCheck"; "convertCase"; "textType"; "includeReflectionData"], [
"    def shortrepr(self):";
"        parts = []";
"        parts.append(""versionCheck = %s"" % self.version_check)";
"        parts.append(""convertCase = %s"" % self.convert_case)";
"        parts.append(""textType = %s"" % self.text_type)";
"        parts.append(""includeReflectionData = %s"" % self.include_reflection_data)";
"        return ""(%s)"" % "", "".join(parts)"]).

(** layout, names in the schema, text *)
Definition repr_texts : list (struct_node * list string * list string) :=
  [r_Field_slot; r_Field_group; r_Field_ordinal; r_Field; r_Node_struct; r_Node_enum; r_Node_interface; r_Node_const; r_Node_annotation; r_Node_NestedNode; r_Node_Parameter; r_Node_SourceInfo_Member; r_Node_SourceInfo; r_Node; r_Enumerant; r_Method; r_Superclass; r_Type_list; r_Type_enum; r_Type_struct; r_Type_interface; r_Type_anyPointer_unconstrained; r_Type_anyPointer_parameter; r_Type_anyPointer_implicitMethodParameter; r_Type_anyPointer; r_Type; r_Value; r_Annotation; r_Brand_Scope; r_Brand_Binding; r_Brand; r_CapnpVersion; r_CodeGeneratorRequest_RequestedFile_Import; r_CodeGeneratorRequest_RequestedFile; r_CodeGeneratorRequest; r_Options].
