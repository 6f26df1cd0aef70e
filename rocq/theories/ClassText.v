(** Model of the text of a whole class, from the first method to the last
    constructor: compiler/struct_.py:79-88 (the calls of _emit_union_tag,
    field.emit and _emit_ctors, in this order). What comes before (the
    constants of the class) and after (shortrepr, the methods of $Py.key) is
    not part of it. *)
From Verif Require Import Base List CopyList Case Loader Ctor GenText.
From Coq Require Import String.
From Coq Require Import Lists.List.
Local Notation length := Datatypes.length.
Local Open Scope string_scope.
Local Open Scope list_scope.
Local Open Scope Z_scope.

(** struct_.py:100-107 (_get_enum_items). discriminantCount is not part of the
    model: it is the number of members *)
Definition union_items (fs : list field) : list str :=
  map (fun i => match find (fun f => match f_disc f with Some d => d =? Z.of_nat i | None => false end) (rev fs) with
                | Some f => lit (f_name f)
                | None => lit "None"
                end) (seq 0 (length (filter is_member fs))).

Section text.
Variable fl : Z -> str.
Variable nm : string -> string -> names.

(** struct_.py:143-149; a struct without discriminants has no tag *)
Fixpoint is_texts (k : nat) (tag_offset i : Z) (items : list str) : list str :=
  match items with
  | [] => []
  | x :: r => is_text k x tag_offset i ++ is_texts k tag_offset (i + 1) r
  end.
Definition union_text (k : nat) (sn : struct_node) : list str :=
  match sn_utag sn with
  | Some u => is_texts k (u * 2) 0 (union_items (sn_fields sn)) ++ [blank_line k]
  | None => []
  end.
(** struct_.py:151-160 (_emit_ctors), 171-177; a blank line, ns.w(), ends every function *)
Definition ctors_text (k : nat) (cls : str) (sn : struct_node) : list str :=
  new_text fl nm k sn ++ init_text fl k cls sn ++ flat_map (new_union_text fl k cls sn) (filter is_member (sn_fields sn)).
(** [group]: struct.isGroup *)
Definition class_text (k : nat) (cls : str) (group : bool) (sn : struct_node) : list str :=
  union_text k sn ++
  flat_map (fun f => field_text fl k (nm "" (f_name f)) f) (sn_fields sn) ++
  if group then [] else ctors_text k cls sn.
End text.
