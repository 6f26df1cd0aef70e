(** Specification: the statements of a module, besides those of PySyntax.v:
    class statements, imports and assignments to attributes (language
    reference, chapters 7 and 8). *)
From Coq Require Import Strings.String.
From Verif Require Import Base Spec Case Loader PyExpr PySyntax.
From Coq Require Import Lists.List.
Local Notation length := Datatypes.length.
Local Open Scope string_scope.
Local Open Scope list_scope.
Local Open Scope Z_scope.

Inductive mstmt :=
| mImport (path : list str) (names : list (str * str))         (* from a.b import x as y, z as w *)
| mClass (decorator : list str) (name base : str) (body : list pstmt) (* @a.b, class name(base): body *)
| mAttr (v a : str) (e : pexp)                                 (* v.a = e *)
| mStmt (q : pstmt).

(** a.b.c *)
Fixpoint p_dotted (n : nat) (ts : list token) : option (list str * list token) :=
  match n with
  | O => None
  | S n =>
      match ts with
      | KName x :: r =>
          match after_op "." r with
          | None => Some ([x], r)
          | Some r => match p_dotted n r with Some (l, r) => Some (x :: l, r) | None => None end
          end
      | _ => None
      end
  end.
(** x as y, z as w *)
Fixpoint p_as (n : nat) (ts : list token) : option (list (str * str)) :=
  match n with
  | O => None
  | S n =>
      match ts with
      | KName x :: r =>
          match after_word "as" r with
          | Some (KName y :: r) =>
              match r with
              | [] => Some [(x, y)]
              | _ => match after_op "," r with
                     | Some r => match p_as n r with Some l => Some ((x, y) :: l) | None => None end
                     | None => None
                     end
              end
          | _ => None
          end
      | _ => None
      end
  end.
Definition p_import (n : nat) (ts : list token) : option mstmt :=
  match p_dotted n ts with
  | Some (p, r) =>
      match after_word "import" r with
      | Some r => match p_as n r with Some l => Some (mImport p l) | None => None end
      | None => None
      end
  | None => None
  end.
(** after "class" *)
Definition p_class (n : nat) (dec : list str) (ts : list token) (r : list line) : option (mstmt * list line) :=
  match ts with
  | KName c :: o :: KName b :: p :: s :: one =>
      if is_op "(" o && is_op ")" p && is_op ":" s then
        match one with
        | [] => match p_suite n 0 r with Some (body, r) => Some (mClass dec c b body, r) | None => None end
        | _ => match p_simple n one with Some q => Some (mClass dec c b [q], r) | None => None end
        end
      else None
  | _ => None
  end.
Definition p_item (n : nat) (ts : list token) (r : list line) : option (mstmt * list line) :=
  match after_op "@" ts with
  | Some d =>
      match p_dotted n d, r with
      | Some (path, []), (O, t') :: r => match after_word "class" t' with Some t' => p_class n path t' r | None => None end
      | _, _ => None
      end
  | None =>
      match after_word "class" ts with
      | Some ts => p_class n [] ts r
      | None =>
          match after_word "from" ts with
          | Some ts => match p_import n ts with Some s => Some (s, r) | None => None end
          | None =>
              match ts with
              | KName v :: d :: KName a :: e :: x =>
                  if is_op "." d && is_op "=" e then
                    match p_test n x with Some (e, []) => Some (mAttr v a e, r) | _ => None end
                  else match p_stmt n 0 ts r with Some (q, r) => Some (mStmt q, r) | None => None end
              | _ => match p_stmt n 0 ts r with Some (q, r) => Some (mStmt q, r) | None => None end
              end
          end
      end
  end.
Fixpoint p_module (n : nat) (ls : list line) : option (list mstmt) :=
  match n with
  | O => None
  | S n =>
      match ls with
      | [] => Some []
      | (O, ts) :: r =>
          match p_item n ts r with
          | Some (s, r) => match p_module n r with Some l => Some (s :: l) | None => None end
          | None => None
          end
      | _ => None
      end
  end.

(** the text [ls] is the module [l] *)
Definition module_as (ls : list str) (l : list mstmt) : Prop :=
  exists toks n, logical None ls = Some toks /\ p_module n toks = Some l.
