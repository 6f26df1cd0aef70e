(** Model of the text of the generated methods, line by line, in pure-Python
    mode: compiler/field.py, compiler/fieldtree.py:113-132,
    compiler/structor.py, compiler/struct_.py:111-204, compiler/module.py:217-226.
    [k] is the column at which the body of the class begins. *)
From Verif Require Const FloatBits Names.
From Verif Require Import Base List CopyList Case Loader Repr Ctor.
From Coq Require Import String.
From Coq Require Import Lists.List.
Local Notation length := Datatypes.length.
Local Open Scope string_scope.
Local Open Scope list_scope.
Local Open Scope Z_scope.

(** the names of a field which come from the rest of the schema: the class of
    a struct field (runtime_name), of an enum (compile_name), of a group
    (compile_name), the item type of a list (list_item_type), what shortrepr()
    shows of the field *)
Record names := mknames { n_cls : str; n_enum : str; n_group : str; n_item : str; n_repr : str }.

(** the lines that Code.w writes: indentation and text *)
Definition ln (k : nat) (s : str) : str := repeat 32 k ++ s.
Definition lns (k : nat) (l : list (nat * str)) : list str := map (fun p => ln (k + fst p) (snd p)) l.
Definition blank_line (k : nat) : str := ln k [].

Section text.
Variable fl : Z -> str.          (* str() of a float, from its bits *)

(** str() of compiler/misc.py:84-86 (as_pyobj) *)
Definition slot_text (t : ftype) (d : Z) : str :=
  match t with
  | TVoid | TText | TData | TStruct | TList _ | TAny => lit "None"
  | TPrim _ | TEnum => dec d
  | TBool => lit (if negb (d =? 0) then "True" else "False")
  | TFloat32 => fl (FloatBits.to64 d)
  | TFloat64 => fl d
  end.

(** fieldtree.py:113-132 (_get_default): a string *)
Fixpoint default_text (force : option (string * Z)) (f : field) : str :=
  let force_default := match force with Some k => same_field f k | None => false end in
  if is_member f && negb force_default then lit "_undefined"
  else
    match f with
    | FSlot _ _ _ t _ _ d => slot_text t d
    | FGroup _ _ _ nullable _ fs =>
        let items := (fix go l := match l with
                                  | [] => []
                                  | g :: r => if visible g then default_text force g :: go r else go r
                                  end) fs in
        if nullable then
          match fs, items with
          | FSlot _ _ _ _ _ _ d :: _, _ :: v :: _ => if negb (d =? 0) then lit "None" else v
          | _, _ => []
          end
        else lit "(" ++ join_with (lit ", ") items ++ lit ",)"
    end.

(** ** Properties (field.py) *)

(** field.py:16-19 *)
Definition ensure_text (disc : option Z) : str :=
  match disc with
  | Some d => lit "self._ensure_union(" ++ dec d ++ lit ")"
  | None => lit "# no union check"
  end.
(** module.py:217-226 (def_property) *)
Definition def_property (k : nat) (name : str) (body : list (nat * str)) : list str :=
  ln k (lit "@property") :: ln k (lit "def " ++ name ++ lit "(self):") :: lns (k + 4) body ++ [blank_line k].

(** type.py:33-46 (fmt), schema_extended.py (get_fmt) *)
Definition fmt_char (t : ftype) : string :=
  match t with
  | TPrim Fb => "b" | TPrim FB => "B" | TPrim Fh => "h" | TPrim FH => "H" | TPrim Fi => "i" | TPrim FI => "I"
  | TPrim Fq => "q" | TPrim FQ => "Q" | TFloat32 => "f" | TFloat64 => "d" | _ => "?"
  end.

(** field.py:59-210: the bodies of the properties of the slots *)
Definition slot_body (nm : names) (name : str) (disc : option Z) (t : ftype) (off d : Z) : list (nat * str) :=
  let offset := off * ty_size t in
  let default_ := slot_text t d in
  (0%nat, ensure_text disc) ::
  match t with
  | TVoid => [(0%nat, lit "return None")]
  | TPrim _ | TFloat32 | TFloat64 =>
      [(0%nat, lit "value = self._read_primitive(" ++ dec offset ++ lit ", ord(b'" ++ lit (fmt_char t) ++ lit "'))");
       (0%nat, lit "if " ++ default_ ++ lit " != 0:");
       (4%nat, lit "value = value ^ " ++ default_);
       (0%nat, lit "return value")]
  | TBool =>
      [(0%nat, lit "value = self._read_bit(" ++ dec (off / 8) ++ lit ", " ++ dec (Z.shiftl 1 (off mod 8)) ++ lit ")");
       (0%nat, lit "if " ++ default_ ++ lit " != 0:");
       (4%nat, lit "value = value ^ " ++ default_);
       (0%nat, lit "return value")]
  | TEnum =>
      [(0%nat, lit "value = self._read_int16(" ++ dec offset ++ lit ")");
       (0%nat, lit "if " ++ default_ ++ lit " != 0:");
       (4%nat, lit "value = (value ^ " ++ default_ ++ lit ")");
       (0%nat, lit "return " ++ n_enum nm ++ lit "._new(value)")]
  | TText => [(0%nat, lit "return self._read_text_bytes(" ++ dec offset ++ lit ")")]
  | TData => [(0%nat, lit "return self._read_data(" ++ dec offset ++ lit ")")]
  | TStruct =>
      [(0%nat, lit "offset = " ++ dec offset);
       (0%nat, lit "p = self._read_fast_ptr(offset)");
       (0%nat, lit "if _ptr.kind(p) == _ptr.FAR:");
       (4%nat, lit "offset, p = self._read_far_ptr(offset)");
       (0%nat, lit "else:");
       (4%nat, lit "offset += self._ptrs_offset");
       (0%nat, lit "if p == 0:");
       (4%nat, lit "return None");
       (0%nat, lit "obj = " ++ n_cls nm ++ lit ".__new__(" ++ n_cls nm ++ lit ")");
       (0%nat, lit "obj._init_from_pointer(self._seg, offset, p)");
       (0%nat, lit "return obj")]
  | TList _ => [(0%nat, lit "return self._read_list(" ++ dec offset ++ lit ", " ++ n_item nm ++ lit ")")]
  | TAny =>
      [(0%nat, lit "if not self.has_" ++ name ++ lit "():");
       (4%nat, lit "return None");
       (0%nat, lit "return _AnyPointer(self, " ++ dec offset ++ lit ")")]
  end.

(** field.py:212-218 (_emit_has_method) *)
Definition has_text (k : nat) (name : str) (offset : Z) : list str :=
  lns k [(0%nat, lit "def has_" ++ name ++ lit "(self):");
         (4%nat, lit "ptr = self._read_fast_ptr(" ++ dec offset ++ lit ")");
         (4%nat, lit "return ptr != 0")] ++ [blank_line k].

(** field.py:112-117, 140-145, 173-181, 192-200: get_foo *)
Definition get_text (k : nat) (nm : names) (name : str) (t : ftype) (offset : Z) : list str :=
  match t with
  | TText =>
      lns k [(0%nat, lit "def get_" ++ name ++ lit "(self):");
             (4%nat, lit "return self._read_text_bytes(" ++ dec offset ++ lit ", default_=b"""")")] ++ [blank_line k]
  | TData =>
      lns k [(0%nat, lit "def get_" ++ name ++ lit "(self):");
             (4%nat, lit "return self._read_data(" ++ dec offset ++ lit ", default_=b"""")")] ++ [blank_line k]
  | TStruct =>
      lns k [(0%nat, lit "def get_" ++ name ++ lit "(self):");
             (4%nat, lit "res = self." ++ name);
             (4%nat, lit "if res is None:");
             (8%nat, lit "return " ++ n_cls nm ++ lit ".from_buffer(b'', 0, data_size=0, ptrs_size=0)");
             (4%nat, lit "return res")] ++ [blank_line k]
  | TList _ =>
      lns k [(0%nat, lit "def get_" ++ name ++ lit "(self):");
             (4%nat, lit "res = self." ++ name);
             (4%nat, lit "if res is None:");
             (8%nat, lit "return _List.from_buffer(b'', 0, 0, 0, " ++ n_item nm ++ lit ")");
             (4%nat, lit "return res")] ++ [blank_line k]
  | _ => []
  end.

(** field.py:222-251: groups; the second line of _init_from_buffer is aligned
    with the first *)
Definition group_body (nm : names) (disc : option Z) : list (nat * str) :=
  [(0%nat, ensure_text disc);
   (0%nat, lit "obj = " ++ n_group nm ++ lit ".__new__(" ++ n_group nm ++ lit ")");
   (0%nat, lit "_Struct._init_from_buffer(obj, self._seg, self._data_offset,");
   (26%nat, lit "self._data_size, self._ptrs_size)");
   (0%nat, lit "return obj")].
Definition nullable_body (name : str) : list (nat * str) :=
  [(0%nat, lit "g = self._" ++ name);
   (0%nat, lit "if g.is_null:");
   (4%nat, lit "return None");
   (0%nat, lit "return g.value")].

(** ** Parameters and arguments *)
Definition args_text (l : list str) : str := join_with (lit ", ") l.
Definition param_text (force : option (string * Z)) (f : field) : str :=
  lit (f_name f) ++ lit "=" ++ default_text force f.

(** str.capitalize *)
Definition like_name (n : str) : str := Names.capitalize n.
(** field.py:253-274 (_emit_ctor_like) *)
Definition like_text (k : nat) (name : str) (fs : list field) : list str :=
  let top := filter visible fs in
  lns k [(0%nat, lit "@staticmethod");
         (0%nat, lit "def " ++ like_name name ++ lit "(" ++ args_text (map (param_text None) top) ++ lit "):");
         (4%nat, lit "return " ++ args_text (map (fun f => lit (f_name f)) top) ++ lit ",")] ++ [blank_line k].

(** field.py:13-20, 25-57, 222-251: everything that is written for a field *)
Definition field_text (k : nat) (nm : names) (f : field) : list str :=
  match f with
  | FSlot n _ disc t off _ d =>
      let name := lit n in
      let offset := off * ty_size t in
      def_property k name (slot_body nm name disc t off d) ++
      get_text k nm name t offset ++
      (if ty_pointer t then has_text k name offset else [])
  | FGroup n _ disc nullable _ fs =>
      let name := lit n in
      if nullable then
        def_property k name (nullable_body name) ++
        def_property k (lit "_" ++ name) (group_body nm disc)
      else
        def_property k name (group_body nm disc) ++ like_text k name fs
  end.

(** ** Constructors (structor.py) *)
Variable nm : string -> string -> names.         (* the prefix and the name of a field *)

Definition type_name (w : wfmt) : str :=
  match w with WInt f => Const.int_name f | WF32 => lit "float32" | WF64 => lit "float64" end.

(** structor.py:151-205 *)
Definition xor_text (k : nat) (explicit : bool) (v : str) (t : ftype) (d : Z) : list str :=
  if explicit then [ln k (v ++ lit " ^= " ++ slot_text t d)] else [].
Definition write_text (k : nat) (w : wfmt) (offset : Z) (v : str) : list str :=
  [ln k (lit "builder.write_" ++ type_name w ++ lit "(pos + " ++ dec offset ++ lit ", " ++ v ++ lit ")")].
Definition new_slot_text (k : nat) (ds : Z) (prefix : string) (name : string) (t : ftype) (off : Z) (explicit : bool) (d : Z) : list str :=
  let v := lit (varname prefix name) in
  let offset := slot_offset ds t off in
  match t with
  | TText => [ln k (lit "builder.alloc_text(pos + " ++ dec offset ++ lit ", " ++ v ++ lit ")")]
  | TData => [ln k (lit "builder.alloc_data(pos + " ++ dec offset ++ lit ", " ++ v ++ lit ")")]
  | TStruct =>
      [ln k (lit "builder.copy_from_struct(pos + " ++ dec offset ++ lit ", " ++ n_cls (nm prefix name) ++ lit ", " ++ v ++ lit ")")]
  | TList _ =>
      [ln k (lit "builder.copy_from_list(pos + " ++ dec offset ++ lit ", " ++ n_item (nm prefix name) ++ lit ", " ++ v ++ lit ")")]
  | TPrim f => xor_text k explicit v t d ++ write_text k (WInt f) offset v
  | TEnum => xor_text k explicit v t d ++ write_text k (WInt Fh) offset v
  | TFloat32 => xor_text k explicit v t d ++ write_text k WF32 offset v
  | TFloat64 => xor_text k explicit v t d ++ write_text k WF64 offset v
  | TBool =>
      xor_text k explicit v t d ++
      [ln k (lit "builder.write_bool(" ++ dec (off / 8) ++ lit ", " ++ dec (off mod 8) ++ lit ", " ++ v ++ lit ")")]
  | TVoid => []
  | TAny => [ln k (lit "raise NotImplementedError('Unsupported field type: " ++ n_repr (nm prefix name) ++ lit "')")]
  end.

(** structor.py:63-149 *)
Fixpoint new_field_text (k : nat) (ds : Z) (union : option (string * Z)) (prefix : string) (f : field) : list str :=
  let v := varname prefix (f_name f) in
  let body k :=
    match f with
    | FSlot n _ _ t off explicit d => new_slot_text k ds prefix n t off explicit d
    | FGroup _ _ _ nullable utag fs =>
        let union' := match utag with Some u => Some (v, u * 2)%Z | None => None end in
        let children := (fix go l := match l with
                                     | [] => []
                                     | g :: r => if visible g then new_field_text k ds union' v g ++ go r else go r
                                     end) fs in
        if nullable then
          match filter visible fs with
          | _ :: value :: _ =>
              lns k [(0%nat, lit "if " ++ lit v ++ lit " is None:");
                     (4%nat, lit v ++ lit "_is_null = 1");
                     (4%nat, lit v ++ lit "_value = " ++ default_text None value);
                     (0%nat, lit "else:");
                     (4%nat, lit v ++ lit "_is_null = 0");
                     (4%nat, lit v ++ lit "_value = " ++ lit v)] ++ children
          | _ => []
          end
        else
          ln k (args_text (map (fun g => lit (varname v (f_name g))) (filter visible fs)) ++ lit ", = " ++ lit v) :: children
    end in
  match f_disc f with
  | Some d =>
      match union with
      | Some (u, off) =>
          ln k (lit "if " ++ lit v ++ lit " is not _undefined:") ::
          ln (k + 4) (lit (curtag u) ++ lit " = _check_tag(" ++ lit (curtag u) ++ lit ", '" ++ lit (f_name f) ++ lit "')") ::
          ln (k + 4) (lit "builder.write_int16(" ++ dec off ++ lit ", " ++ dec d ++ lit ")") ::
          body (k + 4)%nat
      | None => []
      end
  | None => body k
  end.

(** structor.py:33-61 (emit) *)
Definition new_text (k : nat) (sn : struct_node) : list str :=
  let top := filter visible (sn_fields sn) in
  let union := match sn_utag sn with Some u => Some ("anonymous", u * 2)%Z | None => None end in
  lns k [(0%nat, lit "@staticmethod");
         (0%nat, lit "def __new(" ++ args_text (map (param_text None) top) ++ lit "):");
         (4%nat, lit "builder = _SegmentBuilder()");
         (4%nat, lit "pos = builder.allocate(" ++ dec ((sn_ds sn + sn_ps sn) * 8) ++ lit ")")] ++
  map (fun u => ln (k + 4) (lit (curtag u) ++ lit " = None")) (all_unions sn) ++
  flat_map (new_field_text (k + 4) (sn_ds sn) union "") top ++
  [ln (k + 4) (lit "return builder.as_string()"); blank_line k].

(** compiler/struct_.py:160-169 (_emit_init); [cls]: compile_name *)
Definition init_text (k : nat) (cls : str) (sn : struct_node) : list str :=
  let top := filter visible (sn_fields sn) in
  lns k [(0%nat, lit "def __init__(" ++ args_text (lit "self" :: map (param_text None) top) ++ lit "):");
         (4%nat, lit "_buf = " ++ cls ++ lit ".__new(" ++ args_text (map (fun f => lit (f_name f)) top) ++ lit ")");
         (4%nat, lit "self._init_from_buffer(_buf, 0, " ++ dec (sn_ds sn) ++ lit ", " ++ dec (sn_ps sn) ++ lit ")")] ++
  [blank_line k].

(** compiler/struct_.py:171-204 (_emit_one_ctor_union) *)
Definition new_union_text (k : nat) (cls : str) (sn : struct_node) (tag : field) : list str :=
  let key := (f_name tag, f_order tag) in
  let mine f := negb (is_member f) || same_field f key in
  let top := filter visible (filter mine (sn_fields sn)) in
  let others := filter (fun f => negb (mine f)) (sn_fields sn) in
  let n f := lit (f_name f) in
  lns k [(0%nat, lit "@classmethod");
         (0%nat, lit "def new_" ++ n tag ++ lit "(" ++ args_text (lit "cls" :: map (param_text (Some key)) top) ++ lit "):");
         (4%nat, lit "buf = " ++ cls ++ lit ".__new(" ++
                 args_text (map (fun f => n f ++ lit "=" ++ n f) top ++ map (fun f => n f ++ lit "=_undefined") others) ++ lit ")");
         (4%nat, lit "return cls.from_buffer(buf, 0, " ++ dec (sn_ds sn) ++ lit ", " ++ dec (sn_ps sn) ++ lit ")")] ++
  [blank_line k].

(** compiler/struct_.py:143-148: is_foo, [i]: its discriminantValue *)
Definition is_text (k : nat) (item : str) (tag_offset i : Z) : list str :=
  lns k [(0%nat, lit "def is_" ++ item ++ lit "(self):");
         (4%nat, lit "return self._read_int16(" ++ dec tag_offset ++ lit ") == " ++ dec i)].
End text.
