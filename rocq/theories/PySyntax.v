(** Specification: the part of Python's syntax in which the methods of the
    generated classes are written. A text is a list of physical lines; [lex]
    makes tokens of a line (language reference, chapter 2), [logical] joins
    lines while a parenthesis is open and drops blank lines and comments,
    [p_test] reads expressions (chapter 6), [p_block] reads statements
    (chapters 7 and 8), block structure being given by the indentation.
    Anything outside of this part of the language is rejected. Nothing here
    depends on capnpy. *)
From Coq Require Import Strings.String.
From Verif Require Import Base Spec Case Loader ReprSpec PyExpr.
From Coq Require Import Lists.List.
Local Notation length := Datatypes.length.
Local Open Scope string_scope.
Local Open Scope list_scope.
Local Open Scope Z_scope.

(** ** Tokens *)
Inductive token :=
| KName (n : str)                 (* an identifier *)
| KWord (n : str)                 (* a keyword *)
| KNum (z : Z) | KFloat (s : str)
| KStr (s : str) | KBytes (b : bytes)
| KOp (o : str).

(** keyword.kwlist of Python 3.7 and later *)
Definition keywords : list str := map lit
  ["False"; "None"; "True"; "and"; "as"; "assert"; "async"; "await"; "break"; "class"; "continue"; "def"; "del";
   "elif"; "else"; "except"; "finally"; "for"; "from"; "global"; "if"; "import"; "in"; "is"; "lambda"; "nonlocal";
   "not"; "or"; "pass"; "raise"; "return"; "try"; "while"; "with"; "yield"].
Definition keyword (n : str) : bool := existsb (str_eqb n) keywords.

(** operators and delimiters: the longest one *)
Definition op2 : list str := map lit ["=="; "!="; "^="; "+="; "-="; "*="; "/="; "|="; "&="; "%="; "<="; ">="; "<<"; ">>"; "**"; "//"; "->"].
Definition op1 : str := lit "()[]{}+-*/%^&|~<>=,.:;@".
Definition operator (s : str) : option (str * str) :=
  match s with
  | [] => None
  | a :: r =>
      match r with
      | b :: r' =>
          if existsb (str_eqb [a; b]) op2 then Some ([a; b], r')
          else if existsb (Z.eqb a) op1 then Some ([a], r) else None
      | [] => if existsb (Z.eqb a) op1 then Some ([a], r) else None
      end
  end.

(** string literals on one line: what follows the opening quote [q]. *)
Fixpoint str_body (q : Z) (s : str) : option (str * str) :=
  match s with
  | [] => None
  | c :: r =>
      if c =? q then Some ([], r)
      else if c =? 10 then None
      else if c =? 92 then
        match r with
        | e :: r' =>
            match byte_escape e with
            | Some x => match str_body q r' with Some (l, t) => Some (x :: l, t) | None => None end
            | None => None
            end
        | [] => None
        end
      else match str_body q r with Some (l, t) => Some (c :: l, t) | None => None end
  end.

Definition quote (c : Z) : bool := (c =? 39) || (c =? 34).

(** 0x and hexadecimal digits *)
Definition hex_digit (c : Z) : bool := digit c || ((97 <=? c) && (c <=? 102)).
Definition hex_number (s : str) : Z := fold_left (fun a c => a * 16 + (if digit c then c - 48 else c - 87)) s 0.
Definition dec_token (s : str) : option (token * str) :=
  match number_literal s with
  | Some (ENum z, t) => Some (KNum z, t)
  | Some (EFloat x, t) => Some (KFloat x, t)
  | _ => None
  end.
Definition num_token (s : str) : option (token * str) :=
  match s with
  | z :: x :: r =>
      if (z =? 48) && (x =? 120) then
        let (h, t) := span hex_digit r in match h with [] => None | _ => Some (KNum (hex_number h), t) end
      else dec_token s
  | _ => dec_token s
  end.

(** the first token of a text that begins with it *)
Definition a_name (s : str) : option (token * str) :=
  match identifier s with
  | Some (x, r) => Some ((if keyword x then KWord x else KName x), r)
  | None => match operator s with Some (o, r) => Some (KOp o, r) | None => None end
  end.
Definition a_token (s : str) : option (token * str) :=
  match s with
  | [] => None
  | c :: r =>
      if quote c then
        match str_body c r with Some (x, t) => Some (KStr x, t) | None => None end
      else if digit c then num_token s
      else if c =? 98 then
        match r with
        | q :: r' =>
            if quote q then
              match bytes_body (length s) q r' with Some (x, t) => Some (KBytes x, t) | None => None end
            else a_name s
        | [] => a_name s
        end
      else a_name s
  end.

(** the tokens of a line; a comment ends it *)
Fixpoint lex_from (fuel : nat) (s : str) : option (list token) :=
  match fuel with
  | O => None
  | S n =>
      match s with
      | [] => Some []
      | c :: r =>
          if c =? 32 then lex_from n r
          else if c =? 35 then Some []
          else
            match a_token s with
            | Some (t, r') => match lex_from n r' with Some l => Some (t :: l) | None => None end
            | None => None
            end
      end
  end.
Definition lex (s : str) : option (list token) := lex_from (S (length s)) s.

(** ** Logical lines *)
Fixpoint indent (s : str) : nat := match s with c :: r => if c =? 32 then S (indent r) else O | [] => O end.

Fixpoint opened (l : list token) : Z :=
  match l with
  | KOp o :: r =>
      (if existsb (str_eqb o) (map lit ["("; "["; "{"]) then 1
       else if existsb (str_eqb o) (map lit [")"; "]"; "}"]) then -1 else 0) + opened r
  | _ :: r => opened r
  | [] => 0
  end.

Definition line := (nat * list token)%type.
Fixpoint logical (cur : option line) (ls : list str) : option (list line) :=
  match ls with
  | [] => match cur with None => Some [] | Some _ => None end
  | l :: r =>
      match lex l with
      | None => None
      | Some ts =>
          match cur, ts with
          | None, [] => logical None r
          | _, _ =>
              let (k, ts) := match cur with None => (indent l, ts) | Some (k, ts0) => (k, ts0 ++ ts) end in
              if opened ts =? 0 then match logical None r with Some x => Some ((k, ts) :: x) | None => None end
              else if 0 <? opened ts then logical (Some (k, ts)) r
              else None
          end
      end
  end.

(** ** Expressions *)
Inductive const := CNone | CTrue | CFalse.
Inductive binop := BAdd | BXor | BMod.
Inductive boolop := OAnd | OOr.
Inductive cmpop := CEq | CNe | CIs | CIsNot.

Inductive pexp :=
| xNum (z : Z) | xFlo (s : str) | xStr (s : str) | xByt (b : bytes)
| xConst (c : const)
| xVar (n : str)
| xDot (e : pexp) (n : str)                                  (* e.n *)
| xApp (e : pexp) (args : list pexp) (kws : list (str * pexp)) (* e(args, name=..) *)
| xTup (l : list pexp)
| xNil                                                       (* [] *)
| xNeg (e : pexp)                                            (* -e *)
| xBin (o : binop) (a b : pexp)
| xCmp (o : cmpop) (a b : pexp)
| xNot (e : pexp)
| xBool (o : boolop) (a b : pexp).                           (* a and b, a or b *)

Definition is_op (o : string) (t : token) : bool := match t with KOp x => str_eqb x (lit o) | _ => false end.
Definition is_word (w : string) (t : token) : bool := match t with KWord x => str_eqb x (lit w) | _ => false end.
(** the text after the operator [o], if it comes first *)
Definition after_op (o : string) (ts : list token) : option (list token) :=
  match ts with t :: r => if is_op o t then Some r else None | [] => None end.
Definition after_word (o : string) (ts : list token) : option (list token) :=
  match ts with t :: r => if is_word o t then Some r else None | [] => None end.

Definition cmp_op (ts : list token) : option (cmpop * list token) :=
  match after_op "==" ts with
  | Some r => Some (CEq, r)
  | None =>
      match after_op "!=" ts with
      | Some r => Some (CNe, r)
      | None =>
          match after_word "is" ts with
          | Some r => match after_word "not" r with Some r' => Some (CIsNot, r') | None => Some (CIs, r) end
          | None => None
          end
      end
  end.

(** a sum or a remainder: of the two operators % binds tighter, but only one
    of them can be used, and only once *)
Definition sum_op (ts : list token) : option (binop * list token) :=
  match after_op "+" ts with
  | Some r => Some (BAdd, r)
  | None => match after_op "%" ts with Some r => Some (BMod, r) | None => None end
  end.
Definition bool_op (ts : list token) : option (boolop * list token) :=
  match after_word "and" ts with
  | Some r => Some (OAnd, r)
  | None => match after_word "or" ts with Some r => Some (OOr, r) | None => None end
  end.

(** [p_test]: and, or; [p_not]: not, comparisons; [p_xor]: a ^ b; [p_sum]:
    a + b, a % b; [p_factor]: -a; [p_atom], [p_trail]: attributes and calls.
    Chains of operators (a and b and c, a or b and c, comparisons, ^, + and %)
    are outside of this part of the language.
    [p_list]: expressions up to a closing parenthesis, and whether there was a
    comma; [p_args]: the arguments of a call. *)
Fixpoint p_test (n : nat) (ts : list token) : option (pexp * list token) :=
  match n with
  | O => None
  | S n =>
      match p_not n ts with
      | None => None
      | Some (a, r) =>
          match bool_op r with
          | None => Some (a, r)
          | Some (o, r) =>
              match p_not n r with
              | None => None
              | Some (b, r) =>
                  match bool_op r with Some _ => None | None => Some (xBool o a b, r) end
              end
          end
      end
  end
with p_not (n : nat) (ts : list token) : option (pexp * list token) :=
  match n with
  | O => None
  | S n =>
      match after_word "not" ts with
      | Some r => match p_not n r with Some (e, r) => Some (xNot e, r) | None => None end
      | None =>
          match p_xor n ts with
          | None => None
          | Some (a, r) =>
              match cmp_op r with
              | None => Some (a, r)
              | Some (o, r) =>
                  match p_xor n r with
                  | None => None
                  | Some (b, r) =>
                      match cmp_op r with Some _ => None | None => Some (xCmp o a b, r) end
                  end
              end
          end
      end
  end
with p_xor (n : nat) (ts : list token) : option (pexp * list token) :=
  match n with
  | O => None
  | S n =>
      match p_sum n ts with
      | None => None
      | Some (a, r) =>
          match after_op "^" r with
          | None => Some (a, r)
          | Some r =>
              match p_sum n r with
              | None => None
              | Some (b, r) => match after_op "^" r with Some _ => None | None => Some (xBin BXor a b, r) end
              end
          end
      end
  end
with p_sum (n : nat) (ts : list token) : option (pexp * list token) :=
  match n with
  | O => None
  | S n =>
      match p_factor n ts with
      | None => None
      | Some (a, r) =>
          match sum_op r with
          | None => Some (a, r)
          | Some (o, r) =>
              match p_factor n r with
              | None => None
              | Some (b, r) => match sum_op r with Some _ => None | None => Some (xBin o a b, r) end
              end
          end
      end
  end
with p_factor (n : nat) (ts : list token) : option (pexp * list token) :=
  match n with
  | O => None
  | S n =>
      match after_op "-" ts with
      | Some r => match p_factor n r with Some (e, r) => Some (xNeg e, r) | None => None end
      | None => match p_atom n ts with Some (e, r) => p_trail n e r | None => None end
      end
  end
with p_atom (n : nat) (ts : list token) : option (pexp * list token) :=
  match n with
  | O => None
  | S n =>
      match ts with
      | KNum z :: r => Some (xNum z, r)
      | KFloat s :: r => Some (xFlo s, r)
      | KStr s :: r => Some (xStr s, r)
      | KBytes b :: r => Some (xByt b, r)
      | KName v :: r => Some (xVar v, r)
      | KWord w :: r =>
          if str_eqb w (lit "None") then Some (xConst CNone, r)
          else if str_eqb w (lit "True") then Some (xConst CTrue, r)
          else if str_eqb w (lit "False") then Some (xConst CFalse, r)
          else None
      | KOp o :: r =>
          if str_eqb o (lit "(") then
            match p_list n r with
            | Some ([e], false, r) => Some (e, r)
            | Some (l, _, r) => Some (xTup l, r)
            | None => None
            end
          else if str_eqb o (lit "[") then
            match after_op "]" r with Some r => Some (xNil, r) | None => None end
          else None
      | [] => None
      end
  end
with p_trail (n : nat) (e : pexp) (ts : list token) : option (pexp * list token) :=
  match n with
  | O => None
  | S n =>
      match after_op "." ts with
      | Some r => match r with KName x :: r => p_trail n (xDot e x) r | _ => None end
      | None =>
          match after_op "(" ts with
          | Some r =>
              match p_args n r with
              | Some (l, kws, r) => p_trail n (xApp e l kws) r
              | None => None
              end
          | None => Some (e, ts)
          end
      end
  end
with p_list (n : nat) (ts : list token) : option (list pexp * bool * list token) :=
  match n with
  | O => None
  | S n =>
      match after_op ")" ts with
      | Some r => Some ([], false, r)
      | None =>
          match p_test n ts with
          | None => None
          | Some (e, r) =>
              match after_op "," r with
              | Some r => match p_list n r with Some (l, _, r) => Some (e :: l, true, r) | None => None end
              | None => match after_op ")" r with Some r => Some ([e], false, r) | None => None end
              end
          end
      end
  end
with p_args (n : nat) (ts : list token) : option (list pexp * list (str * pexp) * list token) :=
  match n with
  | O => None
  | S n =>
      match after_op ")" ts with
      | Some r => Some ([], [], r)
      | None =>
          let key := match ts with
                     | KName x :: t :: r => if is_op "=" t then Some (x, r) else None
                     | _ => None
                     end in
          let ts' := match key with Some (_, r) => r | None => ts end in
          match p_test n ts' with
          | None => None
          | Some (e, r) =>
              let rest := match after_op "," r with
                          | Some r => p_args n r
                          | None => match after_op ")" r with Some r => Some ([], [], r) | None => None end
                          end in
              match rest with
              | None => None
              | Some (l, kws, r) =>
                  match key with
                  | None => Some (e :: l, kws, r)
                  | Some (x, _) =>
                      match l with
                      | [] => if existsb (fun kw => str_eqb x (fst kw)) kws then None else Some ([], (x, e) :: kws, r)
                      | _ => None                 (* a positional argument after a keyword *)
                      end
                  end
              end
          end
      end
  end.

(** expressions separated by commas up to the end of the line or to "=";
    one expression without a comma is itself, otherwise a tuple *)
Fixpoint p_tests (n : nat) (ts : list token) : option (list pexp * bool * list token) :=
  match n with
  | O => None
  | S n =>
      match p_test n ts with
      | None => None
      | Some (e, r) =>
          match after_op "," r with
          | None => Some ([e], false, r)
          | Some [] => Some ([e], true, [])
          | Some r =>
              match after_op "=" r with
              | Some _ => Some ([e], true, r)
              | None => match p_tests n r with Some (l, _, r) => Some (e :: l, true, r) | None => None end
              end
          end
      end
  end.
Definition tuple_of (l : list pexp) (comma : bool) : pexp :=
  match l, comma with [e], false => e | _, _ => xTup l end.

(** ** Statements *)
Inductive target := tOne (n : str) | tMany (l : list str).
Inductive pstmt :=
| qExpr (e : pexp)
| qSet (t : target) (e : pexp)                (* t = e *)
| qAug (v : str) (o : binop) (e : pexp)       (* v += e, v ^= e, v %= e *)
| qReturn (e : pexp) | qRaise (e : pexp) | qPass
| qIf (e : pexp) (a b : list pstmt)
| qDef (decorator : option str) (name : str) (params : list (str * option pexp)) (body : list pstmt).

Fixpoint names_of (l : list pexp) : option (list str) :=
  match l with
  | [] => Some []
  | xVar n :: r => match names_of r with Some x => Some (n :: x) | None => None end
  | _ => None
  end.
Definition aug_op (t : token) : option binop :=
  if is_op "^=" t then Some BXor else if is_op "+=" t then Some BAdd else if is_op "%=" t then Some BMod else None.

Definition p_simple (n : nat) (ts : list token) : option pstmt :=
  match after_word "return" ts with
  | Some r => match p_tests n r with Some (l, c, []) => Some (qReturn (tuple_of l c)) | _ => None end
  | None =>
      match after_word "raise" ts with
      | Some r => match p_test n r with Some (e, []) => Some (qRaise e) | _ => None end
      | None =>
          match after_word "pass" ts with
          | Some r => match r with [] => Some qPass | _ => None end
          | None =>
              match p_tests n ts with
              | None => None
              | Some (l, c, []) => Some (qExpr (tuple_of l c))
              | Some (l, c, t :: r) =>
                  match aug_op t with
                  | Some o =>
                      match l, c with
                      | [xVar v], false => match p_test n r with Some (e, []) => Some (qAug v o e) | _ => None end
                      | _, _ => None
                      end
                  | None =>
                      if is_op "=" t then
                        match names_of l, p_tests n r with
                        | Some vs, Some (l', c', []) =>
                            match vs, c with
                            | [v], false => Some (qSet (tOne v) (tuple_of l' c'))
                            | _, _ => Some (qSet (tMany vs) (tuple_of l' c'))
                            end
                        | _, _ => None
                        end
                      else None
                  end
              end
          end
      end
  end.

(** parameters, up to the closing parenthesis; a parameter without default
    does not follow one with a default; names are different *)
Fixpoint p_params (n : nat) (ts : list token) : option (list (str * option pexp) * list token) :=
  match n with
  | O => None
  | S n =>
      match ts with
      | KName x :: r =>
          let d := match after_op "=" r with
                   | Some r => match p_test n r with Some (e, r) => Some (Some e, r) | None => None end
                   | None => Some (None, r)
                   end in
          match d with
          | None => None
          | Some (d, r) =>
              let rest := match after_op "," r with
                          | Some r => p_params n r
                          | None => match after_op ")" r with Some r => Some ([], r) | None => None end
                          end in
              match rest with
              | None => None
              | Some (l, r) =>
                  if existsb (fun p => str_eqb x (fst p)) l then None
                  else match d, l with
                       | Some _, (_, None) :: _ => None
                       | _, _ => Some ((x, d) :: l, r)
                       end
              end
          end
      | t :: r => if is_op ")" t then Some ([], r) else None
      | [] => None
      end
  end.

Fixpoint p_block (n : nat) (k : nat) (ls : list line) : option (list pstmt * list line) :=
  match n with
  | O => None
  | S n =>
      match ls with
      | [] => Some ([], [])
      | (i, ts) :: r =>
          if (i <? k)%nat then Some ([], ls)
          else if (k <? i)%nat then None
          else
            match p_stmt n k ts r with
            | None => None
            | Some (s, r) => match p_block n k r with Some (l, r) => Some (s :: l, r) | None => None end
            end
      end
  end
with p_stmt (n : nat) (k : nat) (ts : list token) (r : list line) : option (pstmt * list line) :=
  match n with
  | O => None
  | S n =>
      match after_word "if" ts with
      | Some ts =>
          match p_test n ts with
          | Some (e, c :: one) =>
              if is_op ":" c then
                match (match one with
                       | [] => p_suite n k r
                       | _ => match p_simple n one with Some s => Some ([s], r) | None => None end    (* if e: s *)
                       end) with
                | None => None
                | Some (a, r) =>
                    match r with
                    | (i, [w; c]) :: r' =>
                        if (i =? k)%nat && is_word "else" w && is_op ":" c then
                          match p_suite n k r' with Some (b, r) => Some (qIf e a b, r) | None => None end
                        else Some (qIf e a [], r)
                    | _ => Some (qIf e a [], r)
                    end
                end
              else None
          | _ => None
          end
      | None =>
          match after_op "@" ts with
          | Some [KName d] =>
              match r with
              | (i, ts') :: r => if (i =? k)%nat then p_def n k (Some d) ts' r else None
              | [] => None
              end
          | Some _ => None
          | None =>
              match after_word "def" ts with
              | Some _ => p_def n k None ts r
              | None => match p_simple n ts with Some s => Some (s, r) | None => None end
              end
          end
      end
  end
with p_def (n : nat) (k : nat) (d : option str) (ts : list token) (r : list line) : option (pstmt * list line) :=
  match n with
  | O => None
  | S n =>
      match after_word "def" ts with
      | Some (KName f :: t :: ts) =>
          if is_op "(" t then
            match p_params n ts with
            | Some (ps, [c]) =>
                if is_op ":" c then
                  match p_suite n k r with Some (b, r) => Some (qDef d f ps b, r) | None => None end
                else None
            | _ => None
            end
          else None
      | _ => None
      end
  end
with p_suite (n : nat) (k : nat) (r : list line) : option (list pstmt * list line) :=
  match n with
  | O => None
  | S n =>
      match r with
      | (i, _) :: _ => if (k <? i)%nat then p_block n i r else None
      | [] => None
      end
  end.

(** The text [ls], its lines being indented by [k], is the list of
    statements [l]. *)
Definition reads_as (k : nat) (ls : list str) (l : list pstmt) : Prop :=
  exists toks n, logical None ls = Some toks /\ p_block n k toks = Some (l, []).
