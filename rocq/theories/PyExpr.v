(** Specification: the expressions of Python which occur in the declaration of
    a constant, their concrete syntax ([expression], a reader following the
    lexical and grammatical rules of the language reference, 2.4 and 6.2-6.3)
    and their evaluation ([eval]). Nothing here depends on capnpy. *)
From Coq Require Import Strings.String.
From Verif Require Import Base Spec Case Loader ReprSpec.
From Coq Require Import Lists.List.
Local Notation length := Datatypes.length.

Inductive expr :=
| ENum (z : Z)                        (* an integer literal *)
| EFloat (s : str)                    (* a floating point literal *)
| EBytes (b : bytes)                  (* a bytes literal *)
| EName (n : str)
| EAttr (e : expr) (n : str)          (* e.n *)
| ECall (e : expr) (args : list expr) (* e(args) *)
| ETuple (l : list expr)
| ENeg (e : expr).                    (* -e *)

(** ** Literals *)

(** bytes literals: what follows the opening quote [q]. Python's escapes: a
    backslash and one of a b f n r t v, a quote or a backslash; x and exactly
    two hexadecimal digits; one to three octal digits. Any other character
    after a backslash leaves the backslash there (2.4.1). Only ASCII
    characters may stand for themselves; a newline may not. *)
Definition byte_escape (c : Z) : option Z :=
  if c =? 97 then Some 7 else if c =? 98 then Some 8 else if c =? 102 then Some 12
  else if c =? 110 then Some 10 else if c =? 114 then Some 13 else if c =? 116 then Some 9
  else if c =? 118 then Some 11
  else if (c =? 39) || (c =? 34) || (c =? 92) then Some c
  else None.
Definition octal (s : str) : option (Z * str) :=
  match s with
  | a :: b :: c :: r =>
      match octval a, octval b, octval c with
      | Some x, Some y, Some z => Some (x * 64 + y * 8 + z, r)
      | Some x, Some y, None => Some (x * 8 + y, c :: r)
      | Some x, None, _ => Some (x, b :: c :: r)
      | None, _, _ => None
      end
  | a :: b :: r =>
      match octval a, octval b with
      | Some x, Some y => Some (x * 8 + y, r)
      | Some x, None => Some (x, b :: r)
      | None, _ => None
      end
  | a :: r => match octval a with Some x => Some (x, r) | None => None end
  | [] => None
  end.
Definition bytes_char (s : str) : option (list Z * str) :=
  match s with
  | [] => None
  | c :: r =>
      if (c =? 10) || (127 <? c) then None
      else if negb (c =? 92) then Some ([c], r)
      else
        match r with
        | [] => None
        | e :: r1 =>
            match byte_escape e with
            | Some x => Some ([x], r1)
            | None =>
                if e =? 120 then
                  match r1 with
                  | h :: l :: r2 =>
                      match hexval h, hexval l with
                      | Some a, Some b => Some ([a * 16 + b], r2)
                      | _, _ => None
                      end
                  | _ => None
                  end
                else if e =? 10 then Some ([], r1)
                else
                  match octal r with
                  | Some (x, r2) => Some ([x mod 256], r2)
                  | None => if 127 <? e then None else Some ([92; e], r1)
                  end
            end
        end
  end.
Fixpoint bytes_body (fuel : nat) (q : Z) (s : str) : option (bytes * str) :=
  match fuel with
  | O => None
  | S fuel' =>
      match s with
      | [] => None
      | c :: r =>
          if c =? q then Some ([], r)
          else
            match bytes_char s with
            | None => None
            | Some (x, r) =>
                match bytes_body fuel' q r with
                | None => None
                | Some (l, r') => Some (map Zb x ++ l, r')
                end
            end
      end
  end.

(** numbers: digits, then for a float a fraction and an exponent. An integer
    literal has no leading zero. *)
Definition fraction (s : str) : str * str :=
  match s with
  | c :: r => if c =? 46 then let (a, b) := span digit r in (c :: a, b) else ([], s)
  | [] => ([], s)
  end.
Definition exponent (s : str) : str * str :=
  match s with
  | c :: r =>
      if c =? 101 then
        let (sign, r) := match r with
                         | x :: r' => if (x =? 43) || (x =? 45) then ([x], r') else ([], r)
                         | [] => ([], r)
                         end in
        let (ds, r) := span digit r in
        match ds with [] => ([], s) | _ => (c :: sign ++ ds, r) end
      else ([], s)
  | [] => ([], s)
  end.
Definition number_literal (s : str) : option (expr * str) :=
  let (a, r) := span digit s in
  match a with
  | [] => None
  | c :: a' =>
      let (f, r) := fraction r in
      let (e, r) := exponent r in
      match f, e with
      | [], [] => if (c =? 48) && negb (str_eqb a' []) then None else Some (ENum (number a), r)
      | _, _ => Some (EFloat (a ++ f ++ e), r)
      end
  end.

(** identifiers *)
Definition identifier (s : str) : option (str * str) :=
  let (n, r) := span ident_char s in if ident n then Some (n, r) else None.

(** ** Expressions

    [read_expr]: unary minus, then a primary; [read_atom]: a literal, a name
    or something in parentheses; [read_trailers]: attributes and calls after
    the expression [e]; [read_list]: expressions separated by commas up to a
    closing parenthesis, and whether there was a comma at all or nothing. *)
Fixpoint read_expr (fuel : nat) (s : str) : option (expr * str) :=
  match fuel with
  | O => None
  | S n =>
      match expect 45 s with
      | Some r => match read_expr n r with Some (e, r') => Some (ENeg e, r') | None => None end
      | None => match read_atom n (spaces s) with Some (e, r) => read_trailers n e r | None => None end
      end
  end
with read_atom (fuel : nat) (s : str) : option (expr * str) :=
  match fuel with
  | O => None
  | S n =>
      match s with
      | [] => None
      | c :: r =>
          if c =? 40 then
            match read_list n r with
            | Some ([e], false, r') => Some (e, r')
            | Some (l, _, r') => Some (ETuple l, r')
            | None => None
            end
          else if digit c then number_literal s
          else
            match s with
            | 98 :: q :: r' =>
                if (q =? 39) || (q =? 34)
                then match bytes_body (length s) q r' with Some (b, r'') => Some (EBytes b, r'') | None => None end
                else match identifier s with Some (x, r'') => Some (EName x, r'') | None => None end
            | _ => match identifier s with Some (x, r'') => Some (EName x, r'') | None => None end
            end
      end
  end
with read_trailers (fuel : nat) (e : expr) (s : str) : option (expr * str) :=
  match fuel with
  | O => None
  | S n =>
      match expect 46 s with
      | Some r =>
          match identifier (spaces r) with
          | Some (x, r') => read_trailers n (EAttr e x) r'
          | None => None
          end
      | None =>
          match expect 40 s with
          | Some r =>
              match read_list n r with
              | Some (l, _, r') => read_trailers n (ECall e l) r'
              | None => None
              end
          | None => Some (e, s)
          end
      end
  end
with read_list (fuel : nat) (s : str) : option (list expr * bool * str) :=
  match fuel with
  | O => None
  | S n =>
      match expect 41 s with
      | Some r => Some ([], false, r)
      | None =>
          match read_expr n s with
          | None => None
          | Some (e, r) =>
              match expect 44 r with
              | Some r' =>
                  match read_list n r' with
                  | Some (l, _, r'') => Some (e :: l, true, r'')
                  | None => None
                  end
              | None => match expect 41 r with Some r' => Some ([e], false, r') | None => None end
              end
          end
      end
  end.

(** The whole text is the expression [e]. *)
Definition reads (s : str) (e : expr) : Prop :=
  exists k, forall n, (k <= n)%nat -> exists r, read_expr n s = Some (e, r) /\ spaces r = [].

(** ** Evaluation, in any kind of values *)
Record interp (V : Type) := mkinterp {
  i_int : Z -> V; i_float : str -> V; i_bytes : bytes -> V; i_tuple : list V -> V;
  i_neg : V -> res V;
  i_name : str -> res V;                   (* a name *)
  i_attr : V -> str -> res V;              (* an attribute *)
  i_call : V -> list V -> res V }.         (* a call *)
Arguments i_int {V}. Arguments i_float {V}. Arguments i_bytes {V}. Arguments i_tuple {V}.
Arguments i_neg {V}. Arguments i_name {V}. Arguments i_attr {V}. Arguments i_call {V}.

Section eval.
  Context {V : Type} (I : interp V).
  Fixpoint eval (e : expr) : res V :=
    let all := (fix all l := match l with
                             | [] => Ok []
                             | x :: r => do a <- eval x; do b <- all r; Ok (a :: b)
                             end) in
    match e with
    | ENum z => Ok (i_int I z)
    | EFloat s => Ok (i_float I s)
    | EBytes b => Ok (i_bytes I b)
    | EName n => i_name I n
    | EAttr e n => do v <- eval e; i_attr I v n
    | ECall e args => do v <- eval e; do l <- all args; i_call I v l
    | ETuple l => do l <- all l; Ok (i_tuple I l)
    | ENeg e => do v <- eval e; i_neg I v
    end.
End eval.

(** ** How an expression can be written

    (used in proofs only: [reads] says what a text means) *)
