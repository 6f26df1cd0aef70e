(** Specification: running the statements of PySyntax.v, for any kind of
    objects. [V]: values; [S]: the state of the objects that can change.
    Evaluation is from left to right; the names assigned in a function are its
    local names, everywhere in it (language reference, 4.2.2); the defaults of
    the parameters are evaluated when the function is defined. Nothing here
    depends on capnpy. *)
From Coq Require Import Strings.String.
From Verif Require Import Base Spec Case Loader PySyntax.
From Coq Require Import Lists.List.
Local Notation length := Datatypes.length.
Local Open Scope string_scope.
Local Open Scope list_scope.
Local Open Scope Z_scope.

Record runtime (V S : Type) := mkruntime {
  r_int : Z -> V; r_float : str -> V; r_str : str -> V; r_bytes : bytes -> V; r_const : const -> V;
  r_bool : bool -> V;
  r_tuple : list V -> res V;
  r_nil : S -> res (V * S);                                    (* a new empty list *)
  r_neg : V -> res V;
  r_bin : binop -> V -> V -> res V;
  r_cmp : cmpop -> V -> V -> res bool;
  r_truth : V -> res bool;
  r_iter : V -> res (list V);                                  (* what unpacking an object gives *)
  r_global : str -> res V;
  r_attr : V -> str -> S -> res (V * S);
  r_call : V -> list V -> list (str * V) -> S -> res (V * S);
  r_raise : V -> exn }.
Arguments r_int {V S}. Arguments r_float {V S}. Arguments r_str {V S}. Arguments r_bytes {V S}. Arguments r_const {V S}.
Arguments r_bool {V S}. Arguments r_tuple {V S}. Arguments r_neg {V S}. Arguments r_bin {V S}. Arguments r_cmp {V S}.
Arguments r_truth {V S}. Arguments r_iter {V S}. Arguments r_global {V S}. Arguments r_attr {V S}. Arguments r_call {V S}.
Arguments r_raise {V S}. Arguments r_nil {V S}.

Section run.
  Context {V S : Type} (R : runtime V S).

  Definition vars := str -> option V.
  Definition set_var (e : vars) (n : str) (v : V) : vars := fun m => if str_eqb m n then Some v else e m.

  (** [L]: the local names *)
  Definition var (L : list str) (e : vars) (n : str) : res V :=
    if existsb (str_eqb n) L then match e n with Some v => Ok v | None => Err NameError end
    else r_global R n.

  Fixpoint ev (L : list str) (e : vars) (x : pexp) (s : S) : res (V * S) :=
    let all := (fix all l s := match l with
                               | [] => Ok ([], s)
                               | a :: r => do (v, s) <- ev L e a s; do (vs, s) <- all r s; Ok (v :: vs, s)
                               end) in
    match x with
    | xNum z => Ok (r_int R z, s)
    | xFlo t => Ok (r_float R t, s)
    | xStr t => Ok (r_str R t, s)
    | xByt b => Ok (r_bytes R b, s)
    | xConst c => Ok (r_const R c, s)
    | xVar n => do v <- var L e n; Ok (v, s)
    | xDot a n => do (v, s) <- ev L e a s; r_attr R v n s
    | xApp f args kws =>
        do (g, s) <- ev L e f s;
        do (vs, s) <- all args s;
        do (ks, s) <- (fix allk l s := match l with
                                       | [] => Ok ([], s)
                                       | (k, a) :: r => do (v, s) <- ev L e a s; do (vs, s) <- allk r s; Ok ((k, v) :: vs, s)
                                       end) kws s;
        r_call R g vs ks s
    | xTup l => do (vs, s) <- all l s; do v <- r_tuple R vs; Ok (v, s)
    | xNeg a => do (v, s) <- ev L e a s; do v <- r_neg R v; Ok (v, s)
    | xBin o a b => do (v, s) <- ev L e a s; do (w, s) <- ev L e b s; do v <- r_bin R o v w; Ok (v, s)
    | xCmp o a b => do (v, s) <- ev L e a s; do (w, s) <- ev L e b s; do c <- r_cmp R o v w; Ok (r_bool R c, s)
    | xNot a => do (v, s) <- ev L e a s; do c <- r_truth R v; Ok (r_bool R (negb c), s)
    | xNil => r_nil R s
    | xBool o a b =>
        do (v, s) <- ev L e a s;
        do c <- r_truth R v;
        if match o with OAnd => c | OOr => negb c end then ev L e b s else Ok (v, s)
    end.
  Fixpoint ev_all (L : list str) (e : vars) (l : list pexp) (s : S) : res (list V * S) :=
    match l with
    | [] => Ok ([], s)
    | a :: r => do (v, s) <- ev L e a s; do (vs, s) <- ev_all L e r s; Ok (v :: vs, s)
    end.

  (** what a statement ends with: the next one, or a returned value *)
  Inductive outcome := Next (e : vars) (s : S) | Return (v : V) (s : S).

  Fixpoint set_vars (e : vars) (ns : list str) (vs : list V) : option vars :=
    match ns, vs with
    | [], [] => Some e
    | n :: ns, v :: vs => set_vars (set_var e n v) ns vs
    | _, _ => None
    end.

  (** a def inside of a function is outside of this part of the language *)
  Fixpoint run_stmt (L : list str) (q : pstmt) (e : vars) (s : S) : res outcome :=
    let block := (fix block l e s := match l with
                                     | [] => Ok (Next e s)
                                     | q :: r => do o <- run_stmt L q e s;
                                                 match o with Next e s => block r e s | Return _ _ => Ok o end
                                     end) in
    match q with
    | qExpr x => do (_, s) <- ev L e x s; Ok (Next e s)
    | qSet t x =>
        do (v, s) <- ev L e x s;
        match t with
        | tOne n => Ok (Next (set_var e n v) s)
        | tMany ns =>
            do vs <- r_iter R v;
            match set_vars e ns vs with Some e => Ok (Next e s) | None => Err ValueError end
        end
    | qAug n o x =>
        do v <- var L e n;
        do (w, s) <- ev L e x s;
        do v <- r_bin R o v w;
        Ok (Next (set_var e n v) s)
    | qReturn x => do (v, s) <- ev L e x s; Ok (Return v s)
    | qRaise x => do (v, s) <- ev L e x s; Err (r_raise R v)
    | qPass => Ok (Next e s)
    | qIf x a b =>
        do (v, s) <- ev L e x s;
        do c <- r_truth R v;
        if c then block a e s else block b e s
    | qDef _ _ _ _ => Err SyntaxError
    end.
  Fixpoint run_block (L : list str) (l : list pstmt) (e : vars) (s : S) : res outcome :=
    match l with
    | [] => Ok (Next e s)
    | q :: r =>
        do o <- run_stmt L q e s;
        match o with Next e s => run_block L r e s | Return _ _ => Ok o end
    end.

  (** the names assigned by statements *)
  Fixpoint assigned (q : pstmt) : list str :=
    match q with
    | qSet (tOne n) _ => [n]
    | qSet (tMany ns) _ => ns
    | qAug n _ _ => [n]
    | qIf _ a b => flat_map assigned a ++ flat_map assigned b
    | qDef _ n _ _ => [n]
    | _ => []
    end.

  (** ** Functions *)
  Definition find_kw (kws : list (str * V)) (n : str) : option V :=
    match find (fun kw => str_eqb (fst kw) n) kws with Some kw => Some (snd kw) | None => None end.
  Fixpoint bind_params (ps : list (str * option V)) (args : list V) (kws : list (str * V)) : res (list V) :=
    match ps with
    | [] => match args with [] => Ok [] | _ => Err TypeError end
    | (n, d) :: ps =>
        match args, find_kw kws n, d with
        | _ :: _, Some _, _ => Err TypeError
        | v :: args, None, _ => do vs <- bind_params ps args kws; Ok (v :: vs)
        | [], Some v, _ => do vs <- bind_params ps [] kws; Ok (v :: vs)
        | [], None, Some v => do vs <- bind_params ps [] kws; Ok (v :: vs)
        | [], None, None => Err TypeError
        end
    end.

  (** the defaults, when the def is executed *)
  Fixpoint def_params (ps : list (str * option pexp)) (s : S) : res (list (str * option V)) :=
    match ps with
    | [] => Ok []
    | (n, None) :: r => do l <- def_params r s; Ok ((n, None) :: l)
    | (n, Some x) :: r => do (v, s) <- ev [] (fun _ => None) x s; do l <- def_params r s; Ok ((n, Some v) :: l)
    end.

  (** calling the function defined by [def f(ps): body] *)
  Definition call_def (ps : list (str * option pexp)) (body : list pstmt) (args : list V) (kws : list (str * V)) (s : S)
    : res (V * S) :=
    do ps <- def_params ps s;
    if forallb (fun kw => existsb (fun p => str_eqb (fst kw) (fst p)) ps) kws then
      do vs <- bind_params ps args kws;
      match set_vars (fun _ => None) (map fst ps) vs with
      | None => Err TypeError
      | Some e =>
          do o <- run_block (map fst ps ++ flat_map assigned body) body e s;
          match o with
          | Return v s => Ok (v, s)
          | Next _ s => Ok (r_const R CNone, s)
          end
      end
    else Err TypeError.
End run.
