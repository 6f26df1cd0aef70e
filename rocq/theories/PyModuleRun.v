(** Specification: what running the statements of a generated module does
    (language reference, 7.11 and 8.8, and what the documentation of capnpy
    says of the functions that such a module calls). The namespace of the
    module and of each class holds the value bound last to each name.
    Simplified: an imported name is that name of that module, and importing
    succeeds; an expression which is not a literal, a name, a tuple or one of
    the calls below evaluates to itself, without effects; there is no
    [_extended] module. *)
From Coq Require Import Strings.String.
From Verif Require Import Base Spec Case Loader List PyExpr PySyntax PyModule.
From Coq Require Import Lists.List.
Local Notation length := Datatypes.length.
Local Open Scope string_scope.
Local Open Scope list_scope.
Local Open Scope Z_scope.

Inductive mval :=
| VNone | VInt (z : Z) | VStr (s : str) | VBool (b : bool) | VTup (l : list mval)
| VExt (path : list str) (n : str)      (* the name n of an imported module *)
| VCls (i : nat)                        (* the class number i *)
| VInst (i : nat) (k : Z)               (* the instance k of the enum i *)
| VItem (kind : str) (i : nat)          (* an item type of lists, for the class i *)
| VFun (decorator : option str) (params : list (str * option pexp)) (body : list pstmt)
| VOther (e : pexp).

(** a namespace: the latest binding first *)
Definition env := list (str * mval).
Fixpoint get (g : env) (n : str) : option mval :=
  match g with [] => None | (x, v) :: r => if str_eqb x n then Some v else get r n end.
Record pycls := mkpc { pc_name : str; pc_base : mval; pc_attrs : env }.
Record mst := mkmst { m_globals : env; m_heap : list pycls }.
Definition bind_global (st : mst) (n : str) (v : mval) : mst := mkmst ((n, v) :: m_globals st) (m_heap st).
Fixpoint change_nth {A} (f : A -> A) (i : nat) (l : list A) : list A :=
  match l, i with
  | [], _ => []
  | x :: r, O => f x :: r
  | x :: r, S i => x :: change_nth f i r
  end.
Definition add_attrs (l : env) (c : pycls) : pycls := mkpc (pc_name c) (pc_base c) (l ++ pc_attrs c).
Definition set_attrs (st : mst) (i : nat) (l : env) : mst := mkmst (m_globals st) (change_nth (add_attrs l) i (m_heap st)).

Definition builtin_names : list str := map lit ["object"; "globals"; "staticmethod"; "property"].
Definition look (loc g : env) (n : str) : res mval :=
  match get loc n with
  | Some v => Ok v
  | None => match get g n with
            | Some v => Ok v
            | None => if existsb (str_eqb n) builtin_names then Ok (VExt [lit "builtins"] n) else Err NameError
            end
  end.
Fixpoint path_eqb (a b : list str) : bool :=
  match a, b with [], [] => true | x :: a, y :: b => str_eqb x y && path_eqb a b | _, _ => false end.
Definition ext_is (v : mval) (path : list string) (n : string) : bool :=
  match v with VExt p x => path_eqb p (map lit path) && str_eqb x (lit n) | _ => false end.
Fixpoint ev (loc g : env) (e : pexp) : res mval :=
  match e with
  | xNum z => Ok (VInt z)
  | xNeg (xNum z) => Ok (VInt (- z))
  | xStr s => Ok (VStr s)
  | xConst CNone => Ok VNone
  | xConst CTrue => Ok (VBool true)
  | xConst CFalse => Ok (VBool false)
  | xVar n => look loc g n
  | xTup l => do vs <- (fix go l := match l with [] => Ok [] | x :: r => do v <- ev loc g x; do vs <- go r; Ok (v :: vs) end) l; Ok (VTup vs)
  | xApp (xVar f) [a] [] =>
      do c <- look loc g f;
      if ext_is c ["capnpy"; "list"] "EnumItemType" || ext_is c ["capnpy"; "list"] "StructItemType" then
        match ev loc g a with
        | Ok (VCls i) => Ok (VItem (match c with VExt _ n => n | _ => [] end) i)
        | Ok _ => Err TypeError
        | Err x => Err x
        end
      else Ok (VOther e)
  | _ => Ok (VOther e)
  end.

(** the body of a class: its namespace *)
Definition class_step (g loc : env) (q : pstmt) : res env :=
  match q with
  | qPass => Ok loc
  | qSet (tOne n) e => do v <- ev loc g e; Ok ((n, v) :: loc)
  | qDef d n ps b => Ok ((n, VFun d ps b) :: loc)
  | _ => Err SyntaxError
  end.
Fixpoint class_body (g loc : env) (l : list pstmt) : res env :=
  match l with [] => Ok loc | q :: r => do loc <- class_step g loc q; class_body g loc r end.

(** fill_enum(cls): the member number i is the instance i *)
Definition member_attrs (i : nat) (names : list mval) : env :=
  rev (map (fun p => (match snd p with VStr s => s | _ => [] end, VInst i (Z.of_nat (fst p)))) (combine (seq 0 (length names)) names)).
Definition is_str (v : mval) : bool := match v with VStr _ => true | _ => false end.
Definition fill_enum (st : mst) (v : mval) : res mst :=
  match v with
  | VCls i =>
      match nth_error (m_heap st) i with
      | Some c => match get (pc_attrs c) (lit "__members__") with
                  | Some (VTup l) => if forallb is_str l then Ok (set_attrs st i (member_attrs i l)) else Err TypeError
                  | _ => Err AttributeError
                  end
      | None => Err MemFault
      end
  | _ => Err TypeError
  end.

(** Cls.__extend__: the attributes of the new class become attributes of the
    class before it, except these *)
Definition not_copied : list str := map lit ["__dict__"; "__doc__"; "__module__"; "__weakref__"].
Definition copied (l : env) : env := filter (fun p => negb (existsb (str_eqb (fst p)) not_copied)) l.

(** [version]: capnpy.__version__ *)
Definition exec_item (version : str) (s : mstmt) (st : mst) : res mst :=
  let g := m_globals st in
  match s with
  | mImport path names => Ok (mkmst (rev (map (fun p => (snd p, VExt path (fst p))) names) ++ g) (m_heap st))
  | mClass dec c b body =>
      do base <- look [] g b;
      do attrs <- class_body g [] body;
      match dec with
      | [] => Ok (mkmst ((c, VCls (length (m_heap st))) :: g) (m_heap st ++ [mkpc c base attrs]))
      | [x; m] =>
          if str_eqb m (lit "__extend__") then
            match look [] g x with
            | Ok (VCls i) => Ok (bind_global (set_attrs st i (copied attrs)) c (VCls i))
            | Ok _ => Err AttributeError
            | Err x => Err x
            end
          else Err AttributeError
      | _ => Err SyntaxError
      end
  | mAttr v a e =>
      do x <- look [] g v;
      do y <- ev [] g e;
      match x with VCls i => Ok (set_attrs st i [(a, y)]) | _ => Err AttributeError end
  | mStmt (qSet (tOne n) e) => do v <- ev [] g e; Ok (bind_global st n v)
  | mStmt (qExpr (xApp (xVar f) args kws)) =>
      do c <- look [] g f;
      if ext_is c ["capnpy"; "enum"] "fill_enum" then
        match args with [a] => do v <- ev [] g a; fill_enum st v | _ => Err TypeError end
      else if ext_is c ["capnpy"; "util"] "check_version" then
        match args with
        | [_; a] => do v <- ev [] g a; match v with VStr s => if str_eqb s version then Ok st else Err SystemError | _ => Err TypeError end   (* ImportError *)
        | _ => Err TypeError
        end
      else if ext_is c ["capnpy"; "util"] "extend_module_maybe" then Ok st
      else Err NotImplementedError
  | _ => Err SyntaxError
  end.
Fixpoint exec (version : str) (l : list mstmt) (st : mst) : res mst :=
  match l with [] => Ok st | s :: r => do st <- exec_item version s st; exec version r st end.

(** the text [ls] is a module which, run in a namespace with __name__ and
    __schema__, leaves [st] *)
Definition start (modname schema : str) : mst := mkmst [(lit "__schema__", VStr schema); (lit "__name__", VStr modname)] [].
Definition runs (version modname schema : str) (ls : list str) (st : mst) : Prop :=
  exists l, module_as ls l /\ exec version l (start modname schema) = Ok st.

(** [n] is the class [c], which is number [i] *)
Definition class_is (st : mst) (n : str) (i : nat) (c : pycls) : Prop :=
  get (m_globals st) n = Some (VCls i) /\ nth_error (m_heap st) i = Some c.
Definition attr (c : pycls) (n : str) : option mval := get (pc_attrs c) n.
