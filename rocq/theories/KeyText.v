(** Model of the text of the method that $Py.key adds to a class, pure-Python
    mode: compiler/struct_.py:274-304 (_emit_key_maybe). [fs]: the fields of
    the struct, with their names in the schema; [value]: the text of the
    annotation. *)
From Verif Require Import Base List CopyList Case Loader Ctor GenText PyGroup.
From Coq Require Import String.
From Coq Require Import Lists.List.
Local Notation length := Datatypes.length.
Local Open Scope string_scope.
Local Open Scope list_scope.
Local Open Scope Z_scope.

(** struct_.py:297-303 *)
Definition key_method (k : nat) (l : list field) : list str :=
  blank_line k ::
  lns k [(0%nat, lit "def _key(self):");
         (4%nat, lit "return (" ++ args_text (map (fun f => lit "self." ++ lit (f_name f)) l) ++ lit ",)")].
Definition key_text (k : nat) (fs : sfields) (value : str) : res (list str) :=
  do l <- key_fields fs value; Ok (key_method k l).
