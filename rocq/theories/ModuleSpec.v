(** Specification for C85: which schemas, and what a generated module must
    hold after it has run. *)
From Coq Require Import Strings.String.
From Verif Require FloatBits PyPrint ReprTextFacts.
From Verif Require Import Base Spec CopyList Case Loader PyExpr Ctor PySyntax PyRun GenRun GenText ClassText ReprText KeyText ModuleText TextSpec ClassSpec PyModule PyModuleRun.
From Coq Require Import Lists.List.
Local Notation length := Datatypes.length.
Local Open Scope string_scope.
Local Open Scope list_scope.
Local Open Scope Z_scope.

(** the nodes of a schema, those inside a node first *)
Fixpoint inside (n : mnode) : list mnode :=
  match n with
  | NStruct _ ch => (fix go l := match l with [] => [] | c :: r => inside c ++ go r end) ch ++ [n]
  | _ => [n]
  end.
Definition all_nodes (l : list mnode) : list mnode := flat_map inside l.

(** text that repr() writes between quotes as it is *)
Definition quotable (s : str) : Prop := forall c, In c s -> c <> 39 /\ c <> 92 /\ c <> 10.
(** what the texts of the values of constants are read as *)
Definition value_read (val : str -> pexp) (v : str) : Prop :=
  PyPrint.wfx (val v) /\ PyPrint.sh (val v) = v /\
  match val v with xVar _ | xTup _ | xApp (xVar _) _ _ => False | _ => True end.

Section described.
  Context (w : world) (fl : Z -> str) (nm : str -> string -> string -> names) (val : str -> pexp).
  Definition item_name (n : str) : str := lit "_" ++ n ++ lit "_list_item_type".
  (** what a node is called, inside the node it belongs to and in the module *)
  Definition nested_names (n : mnode) : list str :=
    match n with
    | NStruct s _ => if sd_group s then [] else [sd_short s]
    | NEnum short _ _ _ => [short]
    | NConst n _ => [n]
    | NAnn _ _ _ => []
    end.
  Definition module_name (n : mnode) : list str :=
    match n with NStruct s _ => [sd_name s] | NEnum _ n _ _ => [n] | NConst _ _ => [] | NAnn n _ _ => [n] end.
  Definition module_names (n : mnode) : list str :=
    match n with
    | NStruct s _ => sd_name s :: match sd_items s with [] => [] | _ => [tag_name s] end ++ [item_name (sd_name s)]
    | NEnum _ n _ _ => [n; item_name n]
    | NConst _ _ => []
    | NAnn n _ _ => [n]
    end.
  (** the attributes of the class of a struct *)
  Definition fixed_names : list str := map lit ["__name__"; "__capnpy_id__"; "__static_data_size__"; "__static_ptrs_size__"; "__tag__"; "__tag_offset__"; "shortrepr"; "_key";
    "__dict__"; "__doc__"; "__module__"; "__weakref__"].
  Definition struct_names (s : struct_decl) (ch : list mnode) : list str :=
    fixed_names ++ flat_map nested_names ch ++ class_methods (sd_group s) (sd_sn s).
  Definition enum_names (items : list str) : list str := map lit ["__capnpy_id__"; "__members__"; "_new"] ++ items.

  (** what the compiler has checked of a node *)
  Definition node_readable (n : mnode) : Prop :=
    match n with
    | NStruct s ch =>
        py_name (sd_short s) /\ py_name (sd_name s) /\ quotable (sd_dotname s) /\ 0 <= sd_id s < 2 ^ 64 /\
        (exists c, class_described w fl (nm (sd_name s)) (sd_name s) c (sd_group s) (sd_sn s)) /\
        Forall ReprTextFacts.shown_field (sd_fields s) /\
        match sd_key s with Some l => l <> [] /\ Forall (fun f => py_name (lit (f_name f))) l | None => True end
    | NEnum short n id items => py_name short /\ py_name n /\ items <> [] /\ Forall quotable items
    | NConst n v => py_name n /\ value_read val v
    | NAnn n id ts => py_name n /\ 0 <= id < 2 ^ 64
    end.
  Definition header_readable (h : header) : Prop :=
    0 <= h_id h < 2 ^ 64 /\ quotable (h_version h) /\ quotable (h_capnproto h) /\
    match h_reflection h with Some (modname, _, _) => ident modname = true | None => True end.
  Definition readable (h : header) (nodes : list mnode) : Prop := header_readable h /\ forall n, In n (all_nodes nodes) -> node_readable n.

  (** ... and that no name is given twice: in the module, in an enum, in a struct *)
  Definition node_named (n : mnode) : Prop :=
    match n with
    | NStruct s ch =>
        NoDup (struct_names s ch) /\ NoDup (enum_names (sd_items s)) /\
        forall x, In x (fixed_names ++ flat_map nested_names ch) -> ~ In x (tag_name s :: flat_map module_name ch)
    | NEnum _ _ _ items => NoDup (enum_names items)
    | _ => True
    end.
  Definition top_names (nodes : list mnode) : list str := flat_map (fun n => match n with NConst n _ => [n] | _ => [] end) nodes.
  Definition header_used : list str := map lit ["_Struct"; "_BaseEnum"; "_fill_enum"; "_StructItemType"; "_EnumItemType"; "_extend_module_maybe"].
  Definition named (nodes : list mnode) : Prop :=
    NoDup (header_used ++ top_names nodes ++ flat_map module_names (all_nodes nodes)) /\ forall n, In n (all_nodes nodes) -> node_named n.
End described.

(** ** What the module must hold *)
(** the value of a literal; that of any other expression is not looked at *)
Definition literal (e : pexp) : mval :=
  match e with
  | xNum z => VInt z | xNeg (xNum z) => VInt (- z) | xStr s => VStr s
  | xConst CNone => VNone | xConst CTrue => VBool true | xConst CFalse => VBool false
  | _ => VOther e
  end.
(** [x] is the value of the text [v] of a constant *)
Definition constant_is (v : str) (x : option mval) : Prop := exists e, PyPrint.wfx e /\ PyPrint.sh e = v /\ x = Some (literal e).
Section holds.
  Context (st : mst).
  (** the class number i, called n, is an enum with these members *)
  Definition enum_is (i : nat) (n : str) (id : mval) (items : list str) : Prop :=
    exists c, class_is st n i c /\ pc_name c = n /\ pc_base c = VExt (map lit ["capnpy"; "enum"]) (lit "BaseEnum") /\
    attr c (lit "__capnpy_id__") = Some id /\ attr c (lit "__members__") = Some (VTup (map VStr items)) /\
    forall k m, nth_error items k = Some m -> attr c m = Some (VInst i (Z.of_nat k)).
  (** a struct, a group *)
  Definition struct_is (fl : Z -> str) (nm : str -> string -> string -> names) (i : nat) (s : struct_decl) (ch : list mnode) : Prop :=
    exists c, class_is st (sd_name s) i c /\ pc_name c = sd_name s /\ pc_base c = VExt (map lit ["capnpy"; "struct_"]) (lit "Struct") /\
    attr c (lit "__name__") = Some (VStr (sd_dotname s)) /\ attr c (lit "__capnpy_id__") = Some (VInt (sd_id s)) /\
    attr c (lit "__static_data_size__") = Some (VInt (sn_ds (sd_sn s))) /\ attr c (lit "__static_ptrs_size__") = Some (VInt (sn_ps (sd_sn s))) /\
    (* the nested types by their short names *)
    (forall s' ch', In (NStruct s' ch') ch -> sd_group s' = false -> exists i', attr c (sd_short s') = Some (VCls i') /\ get (m_globals st) (sd_name s') = Some (VCls i')) /\
    (forall short n id items, In (NEnum short n id items) ch -> exists i', attr c short = Some (VCls i') /\ get (m_globals st) n = Some (VCls i')) /\
    (* the constants *)
    (forall n v, In (NConst n v) ch -> constant_is v (attr c n)) /\
    (* the tag: an enum of the members of the union, in the order of the discriminants *)
    (forall u, sn_utag (sd_sn s) = Some u -> filter is_member (sn_fields (sd_sn s)) <> [] ->
      exists t items, attr c (lit "__tag__") = Some (VCls t) /\ attr c (lit "__tag_offset__") = Some (VInt (u * 2)) /\ enum_is t (tag_name s) VNone items /\
        length items = length (filter is_member (sn_fields (sd_sn s))) /\
        forall f d, In f (sn_fields (sd_sn s)) -> f_disc f = Some d -> nth_error items (Z.to_nat d) = Some (lit (f_name f))) /\
    (* the functions are those of the text of the class, of shortrepr and of _key *)
    exists methods others, reads_as 4 (class_text fl (nm (sd_name s)) 4 (sd_name s) (sd_group s) (sd_sn s)) methods /\
      reads_as 4 (repr_text 4 (sd_fields s) ++ match sd_key s with Some l => key_method 4 l | None => [] end) others /\
      forall d n ps b, In (qDef d n ps b) (methods ++ others) -> attr c n = Some (VFun d ps b).
  Definition holds (fl : Z -> str) (nm : str -> string -> string -> names) (n : mnode) : Prop :=
    match n with
    | NStruct s ch => exists i, struct_is fl nm i s ch /\ get (m_globals st) (item_name (sd_name s)) = Some (VItem (lit "StructItemType") i)
    | NEnum _ n id items => exists i, enum_is i n (VInt id) items /\ get (m_globals st) (item_name n) = Some (VItem (lit "EnumItemType") i)
    | NConst _ _ => True
    | NAnn n id ts => exists i c, class_is st n i c /\ attr c (lit "__capnpy_id__") = Some (VInt id) /\
        forall k t b, nth_error annotation_targets k = Some t -> nth_error ts k = Some b -> attr c (lit "targets_" ++ lit t) = Some (VBool b)
    end.
End holds.
