(** Model of the text of shortrepr(), pure-Python mode: compiler/struct_.py:
    206-272 (_emit_repr, _shortrepr_for_field). *)
From Coq Require Import Strings.String.
From Verif Require Import Base Spec List Case CopyList Ctor Loader GenText.
From Verif Require Import Repr.
From Coq Require Import Lists.List.
Local Notation length := Datatypes.length.
Local Open Scope string_scope.
Local Open Scope list_scope.
Local Open Scope Z_scope.

(** A field of the schema of Repr.v and its Python name (module.py:148-158) *)
Record nfield := mknf { nf_name : str; nf_field : rfield }.

(** schema_extended.py (is_pointer) *)
Definition rty_pointer (t : rty) : bool :=
  match t with RText _ | RData | RStruct _ | RList _ | RAny => true | _ => false end.
Definition pointer (f : nfield) : bool :=
  match rf_kind (nf_field f) with KSlot t _ _ => rty_pointer t | KGrp _ _ => false end.
(** struct_.py:218-227: the name that is used; for a nullable group with an
    underscore, here and in is_foo *)
Definition shown_name (f : nfield) : str :=
  if is_nullable (nf_field f) then lit "_" ++ nf_name f else nf_name f.

(** struct_.py:248-272 *)
Definition value_text (f : nfield) : str :=
  let x := shown_name f in
  match rf_kind (nf_field f) with
  | KGrp _ _ => lit "self." ++ x ++ lit ".shortrepr()"
  | KSlot t _ _ =>
      match t with
      | RFloat32 => lit "_float32_repr(self." ++ x ++ lit ")"
      | RFloat64 => lit "_float64_repr(self." ++ x ++ lit ")"
      | RPrim _ | REnum _ _ _ => lit "self." ++ x
      | RBool => lit "str(self." ++ x ++ lit ").lower()"
      | RVoid => lit """void"""
      | RText false => lit "_text_bytes_repr(self.get_" ++ x ++ lit "())"
      | RText true => lit "_text_unicode_repr(self.get_" ++ x ++ lit "())"
      | RData => lit "_data_repr(self.get_" ++ x ++ lit "())"
      | RStruct _ | RList _ => lit "self.get_" ++ x ++ lit "().shortrepr()"
      | RAny => lit """???"""
      end
  end.
Definition append_text (f : nfield) : str :=
  lit "parts.append(""" ++ rf_cap (nf_field f) ++ lit " = %s"" % " ++ value_text f ++ lit ")".
(** struct_.py:229-245 *)
Definition part_text (k : nat) (f : nfield) : list str :=
  let x := shown_name f in
  match rf_disc (nf_field f) with
  | Some d =>
      if pointer f then
        lns k [(0%nat, lit "if self.is_" ++ x ++ lit "() and (self.has_" ++ x ++ lit "() or");
               (26%nat, lit "not " ++ (if d =? 0 then lit "True" else lit "False") ++ lit "):");
               (4%nat, append_text f)]
      else [ln k (lit "if self.is_" ++ x ++ lit "(): " ++ append_text f)]
  | None =>
      if pointer f then [ln k (lit "if self.has_" ++ x ++ lit "(): " ++ append_text f)]
      else [ln k (append_text f)]
  end.
Definition repr_text (k : nat) (fs : list nfield) : list str :=
  ln k (lit "def shortrepr(self):") ::
  ln (k + 4) (lit "parts = []") ::
  flat_map (part_text (k + 4)) fs ++
  [ln (k + 4) (lit "return ""(%s)"" % "", "".join(parts)")].
