(** The text of the generated constructors: the statements of Ctor.v, printed as
    compiler/structor.py prints them, for comparison with the generated
    modules that are part of the repository (SchemaPy.v). *)
From Verif Require Const.
From Verif Require Import Base List CopyList Case Loader Repr Ctor.
From Coq Require Import String.
From Coq Require Import Lists.List.
Local Open Scope string_scope.
Local Open Scope list_scope.
Local Open Scope Z_scope.

Definition sjoin (sep : string) (l : list str) : str := join_with (lit sep) l.

(** fieldtree.py:113-132 (_get_default), a string *)
Fixpoint show_val (v : pyval) : str :=
  match v with
  | PUndef => lit "_undefined"
  | PNone => lit "None"
  | PInt z => dec z
  | PBool b => lit (if b then "True" else "False")
  | PFloat z => if z =? 0 then lit "0.0" else lit "?"      (* defaults of floats: only 0.0 here *)
  | PSeq l => lit "(" ++ sjoin ", " (map show_val l) ++ lit ",)"
  | _ => lit "?"
  end.

(** the item types as SchemaPy.v writes them *)
Definition show_item (t : itype) : str :=
  match t with
  | ITStruct a b => lit "(ITStruct " ++ dec a ++ lit " " ++ dec b ++ lit ")"
  | _ => lit "?"
  end.

Definition type_name (w : wfmt) : str :=
  match w with WInt f => Const.int_name f | WF32 => lit "float32" | WF64 => lit "float64" end.

(** structor.py:47-205 *)
Fixpoint show (s : stmt) : list str :=
  match s with
  | SNone v => [lit v ++ lit " = None"]
  | SIfDef v body =>
      (lit "if " ++ lit v ++ lit " is not _undefined:") ::
      (fix go l := match l with [] => [] | x :: r => map (fun t => lit "    " ++ t) (show x) ++ go r end) body
  | SCheckTag v => [lit v ++ lit " = _check_tag(" ++ lit v ++ lit ", _)"]
  | STag off val => [lit "builder.write_int16(" ++ dec off ++ lit ", " ++ dec val ++ lit ")"]
  | SUnpack vs g => [sjoin ", " (map lit vs) ++ lit ", = " ++ lit g]
  | SNull v d =>
      [lit "if " ++ lit v ++ lit " is None:";
       lit "    " ++ lit v ++ lit "_is_null = 1"; lit "    " ++ lit v ++ lit "_value = " ++ show_val d;
       lit "else:";
       lit "    " ++ lit v ++ lit "_is_null = 0"; lit "    " ++ lit v ++ lit "_value = " ++ lit v]
  | SXor v d => [lit v ++ lit " ^= " ++ show_val d]
  | SWrite w off v => [lit "builder.write_" ++ type_name w ++ lit "(pos + " ++ dec off ++ lit ", " ++ lit v ++ lit ")"]
  | SWriteBool a b v => [lit "builder.write_bool(" ++ dec a ++ lit ", " ++ dec b ++ lit ", " ++ lit v ++ lit ")"]
  | SText nul off v =>
      [lit "builder.alloc_" ++ lit (if nul then "text" else "data") ++ lit "(pos + " ++ dec off ++ lit ", " ++ lit v ++ lit ")"]
  | SStruct off v => [lit "builder.copy_from_struct(pos + " ++ dec off ++ lit ", _, " ++ lit v ++ lit ")"]
  | SList t off v => [lit "builder.copy_from_list(pos + " ++ dec off ++ lit ", " ++ show_item t ++ lit ", " ++ lit v ++ lit ")"]
  | SRaise => [lit "raise NotImplementedError(_)"]
  end.

(** structor.py:45-61 *)
Definition show_new (sn : struct_node) : res (list str) :=
  do body <- gen sn;
  let top := filter visible (sn_fields sn) in
  let params := map (fun f => lit (f_name f) ++ lit "=" ++ show_val (default None f)) top in
  Ok ((lit "def __new(" ++ sjoin ", " params ++ lit "):") ::
      lit "builder = _SegmentBuilder()" ::
      (lit "pos = builder.allocate(" ++ dec ((sn_ds sn + sn_ps sn) * 8) ++ lit ")") ::
      flat_map show body ++ [lit "return builder.as_string()"]).
