(** Model of BaseCompiler (compiler/compiler.py:41-137: getpyx,
    _capnp_compile, _capnp_check_version, _exec, generate_py_source) and of
    StandaloneCompiler (compiler/compiler.py:270-296), on Python 3.

    Outside of capnpy, and given by the environment [env]: the processes that
    are run, $PATH, the directories. [gen] stands for loads() of the request
    and the generator (SchemaMsg.v, Accept.v, Const.v, OptDict.v), [dll] for
    Cython and the C compiler (_pyx_to_dll, compiler.py:82-97). *)
From Coq Require Import Strings.String.
From Verif Require Import Base Case Options Loader OptDict.
From Coq Require Import Lists.List.
Local Notation length := Datatypes.length.
Local Open Scope list_scope.
Local Open Scope Z_scope.

Record env := mkenv {
  e_capnp : bool;                                 (* py.path.local.sysfind('capnp') finds it *)
  e_run : list str -> bytes * bytes * Z;          (* stdout, stderr, exit status *)
  e_isdir : path -> bool;
  e_PYX : bool }.

(** str(p) of py.path.local *)
Definition path_str (p : path) : str :=
  match p with [] => [slash] | _ => flat_map (fun c => slash :: c) p end.

(** compiler.py:128-137; the result, and the commands that were run *)
Definition exec (E : env) (cmd : list str) : lres bytes :=
  let '(stdout, stderr, ret) := e_run E cmd in
  if negb (ret =? 0) then Raise LCompiler else Ret stdout.

(** bytes.strip() *)
Definition blank (c : Z) : bool := existsb (Z.eqb c) [32; 9; 10; 11; 12; 13].
Fixpoint lstrip (s : str) : str := match s with c :: r => if blank c then lstrip r else s | [] => [] end.
Definition strip (s : str) : str := rev (lstrip (rev (lstrip s))).

(** compiler/util.py:3-31 *)
Definition as_identifier (s : str) : lres str := if Loader.ascii s then Ret s else Raise LValue.

(** str.startswith *)
Fixpoint startswith (p s : str) : bool :=
  match p, s with
  | [], _ => true
  | c :: p, d :: s => (c =? d) && startswith p s
  | _, [] => false
  end.
(** 'p' in s *)
Fixpoint contains (p s : str) : bool := startswith p s || match s with _ :: r => contains p r | [] => false end.
(** s.rsplit(' ', 1)[1]; None: there is no space, and the unpacking fails *)
Fixpoint after_space (s : str) : option str :=
  match s with
  | [] => None
  | c :: r => match after_space r with Some x => Some x | None => if c =? 32 then Some r else None end
  end.

(** packaging.version.Version (not part of the repository), for the texts
    N.N...N and those followed by dev. [other] stands for the remaining ones:
    None if the version is invalid, else whether it is before 0.5.0. *)
Fixpoint digits (s : str) : str * str :=
  match s with
  | c :: r => if (48 <=? c) && (c <=? 57) then let (a, b) := digits r in (c :: a, b) else ([], s)
  | [] => ([], [])
  end.
Definition int_of (s : str) : Z := fold_left (fun a c => 10 * a + (c - 48)) s 0.
Fixpoint release (fuel : nat) (s : str) : option (list Z * str) :=
  match fuel with
  | O => None
  | S fuel =>
      match digits s with
      | ([], _) => None
      | (d, r) =>
          match r with
          | c :: r' =>
              if (c =? dot) && match r' with c' :: _ => (48 <=? c') && (c' <=? 57) | [] => false end
              then match release fuel r' with Some (l, t) => Some (int_of d :: l, t) | None => None end
              else Some ([int_of d], r)
          | [] => Some ([int_of d], [])
          end
      end
  end.
Definition opt_sep (s : str) : str :=
  match s with c :: r => if existsb (Z.eqb c) [45; 95; 46] then r else s | [] => [] end.
(** [-_.]?dev[-_.]?[0-9]* and the end *)
Definition dev_suffix (s : str) : bool :=
  let t := opt_sep s in
  startswith (lit "dev") t && match snd (digits (opt_sep (skipn 3 t))) with [] => true | _ => false end.
(** the release without its last zeros, compared as a tuple *)
Fixpoint drop_zeros (l : list Z) : list Z :=
  match l with
  | [] => []
  | x :: r => match drop_zeros r with [] => if x =? 0 then [] else [x] | y => x :: y end
  end.
Fixpoint tuple_lt (a b : list Z) : bool :=
  match a, b with
  | _, [] => false
  | [], _ => true
  | x :: a, y :: b => (x <? y) || ((x =? y) && tuple_lt a b)
  end.
Definition before_050 (other : str -> option bool) (v : str) : option bool :=
  match release (S (length v)) v with
  | Some (l, r) =>
      let l := drop_zeros l in
      match r with
      | [] => Some (tuple_lt l [0; 5])
      | _ => if dev_suffix r then Some (negb (tuple_lt [0; 5] l)) else other v
      end
  | None => other v
  end.

(** compiler.py:112-126 *)
Definition check_capnp (other : str -> option bool) (E : env) : lres str :=
  match exec E [lit "capnp"; lit "--version"] with
  | Raise e => Raise e
  | Ret out =>
      match as_identifier (strip (map bZ out)) with
      | Raise e => Raise e
      | Ret version =>
          if negb (startswith (lit "Cap'n Proto version") version) then Raise LCompiler
          else match after_space version with
          | None => Raise LValue
          | Some version =>
              if contains (lit "unknown") version then Ret version
              else match before_050 other version with
              | None => Raise LValue
              | Some true => Raise LCompiler
              | Some false => Ret version
              end
          end
      end
  end.

(** compiler.py:99-110; the version, the request, the commands that were run *)
Definition compile_cmd (E : env) (dirs : list path) (filename : path) : list str :=
  [lit "capnp"; lit "compile"; lit "-o-"] ++
  map (fun d => lit "-I" ++ path_str d) (filter (e_isdir E) dirs) ++ [path_str filename].
Definition capnp_compile other (E : env) (dirs : list path) (filename : path) : lres (str * bytes) * list (list str) :=
  if negb (e_capnp E) then (Raise LCompiler, [])
  else
    let cmd1 := [lit "capnp"; lit "--version"] in
    match check_capnp other E with
    | Raise e => (Raise e, [cmd1])
    | Ret v =>
        let cmd2 := compile_cmd E dirs filename in
        (match exec E cmd2 with Raise e => Raise e | Ret out => Ret (v, out) end, [cmd1; cmd2])
    end.

(** compiler.py:72-80; the arguments of [gen]: the request, pyx, the options,
    the version of capnp *)
Definition generator := bytes -> bool -> option bytes -> str -> lres str.
Definition generate_py_source other (gen : generator) (E : env) dirs filename px o : lres str * list (list str) :=
  let (r, t) := capnp_compile other E dirs filename in
  (match r with
   | Raise e => Raise e
   | Ret (v, request) => gen request px o v
   end, t).

(** compiler.py:58-65 *)
Definition getpyx (E : env) (p : pyxarg) : lres bool :=
  let px := match p with PTrue => true | PFalse => false | PAuto => e_PYX E end in
  if px && negb (e_PYX E) then Raise LValue else Ret px.

(** compiler.py:48: the directories of the path, and / *)
Definition search_path (cwd : path) (dirs : list str) : list path := map (local cwd) (dirs ++ [[slash]]).

(** ** StandaloneCompiler *)
Definition files := path -> option str.
Definition write (fs : files) (p : path) (text : str) : files :=
  fun q => if path_eq_dec q p then Some text else fs q.
(** py.path.local.new(ext=...) *)
Definition new_ext (p : path) (ext : str) : path := removelast p ++ [purebasename p ++ [dot] ++ ext].

(** compiler.py:278-296. [dll]: the name of the file and its contents *)
Definition standalone other (gen : generator) (dll : path -> str -> lres (str * str)) (E : env) (cwd : path)
    (dirs : list str) (fs : files) (filename : str) (p : pyxarg) (o : option bytes) : lres unit * files * list (list str) :=
  match getpyx E p with
  | Raise e => (Raise e, fs, [])
  | Ret px =>
      let infile := local cwd filename in
      let (r, t) := generate_py_source other gen E (search_path cwd dirs) infile px o in
      match r with
      | Raise e => (Raise e, fs, t)
      | Ret src =>
          if px then
            match dll infile src with
            | Raise e => (Raise e, fs, t)
            | Ret (name, data) => (Ret tt, write fs (removelast infile ++ [name]) data, t)
            end
          else (Ret tt, write fs (new_ext infile (lit "py")) src, t)
      end
  end.

(** __main__.py:73-82: capnpy compile FILE; [dirs]: sys.path *)
Definition cli_compile other gen dll (E : env) (cwd : path) (dirs : list str) (fs : files) (file : str) (f : flags)
  : cres (lres unit) * files * list (list str) :=
  match parse_argv f with
  | SystemExit_ => (SystemExit_, fs, [])
  | Raised e => (Raised e, fs, [])
  | Done (p, o) =>
      let '(r, fs', t) := standalone other gen dll E cwd dirs fs file p (Some o) in (Done r, fs', t)
  end.
