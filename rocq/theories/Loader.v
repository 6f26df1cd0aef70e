(** Model of DynamicCompiler (compiler/compiler.py:139-268): load_schema, its
    cache, the search path, the imports of a generated module, and the part of
    the code generator that decides them (compiler/request.py:22-26, 128-165,
    compiler/module.py:127-135). *)
From Coq Require Import Strings.String Strings.Ascii.
From Verif Require Import Base Case Options.
From Coq Require Import Lists.List.
Local Notation length := Datatypes.length.

(** A Python string literal, as a list of codes *)
Definition lit (x : string) : str := map (fun a => Z.of_nat (nat_of_ascii a)) (list_ascii_of_string x).

(** ** py.path.local (py's own code; POSIX): an absolute normalised path is
    the list of its components *)
Definition path := list str.
Definition path_eq_dec : forall a b : path, {a = b} + {a <> b} := list_eq_dec (list_eq_dec Z.eq_dec).
Definition slash : Z := 47.
Definition dot : Z := 46.

(** str.split(sep) *)
Fixpoint split (sep : Z) (s : str) : list str :=
  match s with
  | [] => [[]]
  | c :: r =>
      if c =? sep then [] :: split sep r
      else match split sep r with
           | x :: l => (c :: x) :: l
           | [] => [[c]]
           end
  end.

(** posixpath.normpath of an absolute path, from its components; [st] holds
    the components already there, the last one first *)
Fixpoint normp (st : list str) (comps : list str) : path :=
  match comps with
  | [] => rev st
  | c :: r =>
      if str_eqb c [] || str_eqb c [dot] then normp st r
      else if str_eqb c [dot; dot] then normp (tl st) r
      else normp (c :: st) r
  end.

(** py.path.local.join (the leading and trailing slashes of the argument are
    stripped) *)
Definition join (d : path) (arg : str) : path := normp (rev d) (split slash arg).
(** py.path.local(filename): relative to the current directory *)
Definition local (cwd : path) (filename : str) : path :=
  match filename with
  | c :: _ => if c =? slash then normp [] (split slash filename) else join cwd filename
  | [] => cwd
  end.
(** the text before the last dot: py.path.local._getbyspec, purebasename *)
Fixpoint before_dot (s : str) : option str :=
  match s with
  | [] => None
  | c :: r =>
      match before_dot r with
      | Some x => Some (c :: x)
      | None => if c =? dot then Some [] else None
      end
  end.
Definition purebasename (p : path) : str :=
  let b := last p [] in match before_dot b with Some x => x | None => b end.

(** str.replace(old, new) for a one-character [old] *)
Fixpoint replace (old : Z) (new : str) (s : str) : str :=
  match s with
  | [] => []
  | c :: r => (if c =? old then new else [c]) ++ replace old new r
  end.

(** What Python accepts as an identifier, among ASCII strings *)
Definition ident_char (c : Z) : bool := is_alnum c || (c =? underscore).
Definition ident (s : str) : bool :=
  match s with
  | [] => false
  | c :: _ => negb (is_digit c) && forallb ident_char s
  end.
(** Characters which stand for themselves in a Python string literal *)
Definition plain_char (c : Z) : bool := negb ((c =? 34) || (c =? 92) || (c =? 10)).

(** ** Schema files *)

(** An entry of RequestedFile.imports: the name as written in the schema, and
    the displayName of the file node if some node of the file is used *)
Record import_ := mkimport { imp_name : str; imp_node : option str }.

(** What load_schema depends on in a schema file: whether the capnp
    executable accepts it, its imports, its file-level $Py.options, whether
    the rest of the generator and the rest of the generated module raise
    nothing. *)
Record source := mksource {
  src_capnp : bool;
  src_imports : list import_;
  src_ann : option opts;
  src_gen : bool;
  src_exec : bool }.

(** A loaded module: its file, the source it was compiled from, the mode, the
    options, and the module objects bound to the names of its imports *)
Record modl := mkmodl {
  m_path : path; m_src : source; m_pyx : bool; m_opts : opts;
  m_refs : list (str * nat) }.

(** The world: file system, current directory, search path of the compiler,
    whether the Cython extensions are there (blob.PYX), the cache
    (self.modules), the module objects ever completed (the identity of a
    module object is its index), the keys of sys.modules. *)
Record world := mkworld {
  w_fs : path -> option source;
  w_cwd : path;
  w_dirs : list path;
  w_PYX : bool;
  w_mods : list (path * nat);
  w_heap : list modl;
  w_sys : list str }.

Inductive lexn :=
| LValue      (* ValueError: arguments, search path, missing extensions, non-ASCII names *)
| LCompiler   (* CompilerError: capnp fails *)
| LAttribute  (* AttributeError: self.filenames *)
| LSyntax     (* the generated source is not valid Python / Cython *)
| LKey        (* KeyError: del sys.modules[...] *)
| LGenerate | LExec  (* anything else raised by the generator / by the module *)
| LRecursion. (* RecursionError *)
Inductive lres (A : Type) := Ret (a : A) | Raise (e : lexn).
Arguments Ret {A} a. Arguments Raise {A} e.

(** compiler.py:19-24 *)
Definition DEFAULT_OPTIONS : opts := mkopts 1 1 1 1.

(** ** Arguments *)
Inductive pyxarg := PTrue | PFalse | PAuto.
Record args := mkargs { a_modname : option str; a_importname : option str; a_filename : option str }.
Definition by_modname (n : str) := mkargs (Some n) None None.
Definition by_importname (n : str) := mkargs None (Some n) None.
Definition by_filename (n : str) := mkargs None None (Some n).

(** compiler.py:58-65 *)
Definition getpyx (w : world) (p : pyxarg) : lres bool :=
  let px := match p with PTrue => true | PFalse => false | PAuto => w_PYX w end in
  if px && negb (w_PYX w) then Raise LValue else Ret px.

(** compiler.py:262-267 *)
Fixpoint find_file (fs : path -> option source) (dirs : list path) (importname : str) : lres path :=
  match dirs with
  | [] => Raise LValue
  | d :: r =>
      match fs (join d importname) with
      | Some _ => Ret (join d importname)
      | None => find_file fs r importname
      end
  end.

(** compiler.py:247-260 *)
Definition get_filename (w : world) (a : args) : lres path :=
  match a with
  | mkargs (Some modname) None None =>
      find_file (w_fs w) (w_dirs w) (replace dot [slash] modname ++ lit ".capnp")
  | mkargs None (Some importname) None =>
      match importname with
      | c :: _ => if c =? slash then find_file (w_fs w) (w_dirs w) importname else Raise LValue
      | [] => Raise LValue
      end
  | mkargs None None (Some filename) => Ret (local (w_cwd w) filename)
  | _ => Raise LValue
  end.

(** ** The generator *)

(** module.py:127-135. [names]: self.importnames, the last one first. A clash
    reads self.filenames, which does not exist. *)
Definition register_import (names : list (str * str)) (fname : str) : lres str :=
  let name := underscore :: replace 43 (lit "PLUS") (purebasename (local [] fname)) ++ lit "_capnp" in
  if existsb (fun e => str_eqb (snd e) name) names then Raise LAttribute else Ret name.

(** request.py:128-149: the statements `name = load_schema(importname)` *)
Definition ascii (s : str) : bool := forallb (fun c => (0 <=? c) && (c <? 128)) s.
Fixpoint declare_imports (names : list (str * str)) (imps : list import_) : lres (list (str * str)) :=
  match imps with
  | [] => Ret []
  | i :: r =>
      match imp_node i with
      | None => declare_imports names r
      | Some fname =>
          if negb (ascii fname) then Raise LValue
          else match register_import names fname with
          | Raise e => Raise e
          | Ret name =>
              if negb (ascii (imp_name i)) then Raise LValue
              else match declare_imports ((fname, name) :: names) r with
              | Raise e => Raise e
              | Ret l => if str_eqb (imp_name i) (lit "/capnp/c++.capnp") then Ret l
                         else Ret ((name, imp_name i) :: l)
              end
          end
      end
  end.

(** compiler.py:72-76: the options of the module *)
Definition default_options (o : option opts) : opts :=
  match o with Some x => Options.combine DEFAULT_OPTIONS x | None => DEFAULT_OPTIONS end.

(** request.py:23-26, compiler.py:233: the name of the module, from the file name given to capnp *)
Definition modname_of (f : path) : str := purebasename f.
Definition tmpname (f : path) : str := modname_of f ++ lit "_tmp".
Definition extname (f : path) : str := lit "capnpy.ext." ++ modname_of f.

(** generate_py_source, up to the statements that load the imports
    (compiler.py:67-80, request.py:22-126). Whether the text is valid Python:
    the names of the imports (request.py:145-149), the name of the class that
    holds the reflection data (request.py:161), in pyx mode the module
    `from ... import __compiler` (request.py:88). Import names with a double
    quote, a backslash or a newline count as errors here. *)
Definition generate (w : world) (f : path) (px : bool) (o : option opts) : lres (source * list (str * str)) :=
  match w_fs w f with
  | None => Raise LCompiler
  | Some src =>
      if negb (src_capnp src) then Raise LCompiler
      else if negb (forallb ascii f) then Raise LValue
      else match declare_imports [] (src_imports src) with
      | Raise e => Raise e
      | Ret stmts =>
          if negb (src_gen src) then Raise LGenerate
          else
            let refl := negb (include_reflection_data (options_generic (src_ann src) (default_options o)) =? 0) in
            if forallb (fun s => ident (fst s) && forallb plain_char (snd s)) stmts
               && (negb refl || forallb ident_char (modname_of f))
               && (negb px || ident (tmpname f))
            then Ret (src, stmts)
            else Raise LSyntax
      end
  end.

(** ** load_schema *)

Definition lookup (f : path) (d : list (path * nat)) : option nat :=
  match find (fun e => if path_eq_dec (fst e) f then true else false) d with
  | Some e => Some (snd e)
  | None => None
  end.
(** d[f] = m *)
Fixpoint dict_set (f : path) (m : nat) (d : list (path * nat)) : list (path * nat) :=
  match d with
  | [] => [(f, m)]
  | e :: r => if path_eq_dec (fst e) f then (f, m) :: r else e :: dict_set f m r
  end.

Definition set_mods (w : world) d := mkworld (w_fs w) (w_cwd w) (w_dirs w) (w_PYX w) d (w_heap w) (w_sys w).
Definition set_sys (w : world) s := mkworld (w_fs w) (w_cwd w) (w_dirs w) (w_PYX w) (w_mods w) (w_heap w) s.
Definition alloc (w : world) (m : modl) : nat * world :=
  (length (w_heap w),
   mkworld (w_fs w) (w_cwd w) (w_dirs w) (w_PYX w) (w_mods w) (w_heap w ++ [m]) (w_sys w)).

(** sys.modules[name] = ... and del sys.modules[name] *)
Definition sys_add (w : world) (n : str) : world :=
  if existsb (str_eqb n) (w_sys w) then w else set_sys w (n :: w_sys w).
Fixpoint remove1 (n : str) (l : list str) : list str :=
  match l with
  | [] => []
  | x :: r => if str_eqb n x then r else x :: remove1 n r
  end.
Definition sys_del (w : world) (n : str) : lres unit * world :=
  if existsb (str_eqb n) (w_sys w) then (Ret tt, set_sys w (remove1 n (w_sys w)))
  else (Raise LKey, w).

(** The import statements of a module, executed in order *)
Fixpoint exec_imports (ld : world -> str -> lres nat * world) (w : world) (stmts : list (str * str))
  : lres (list (str * nat)) * world :=
  match stmts with
  | [] => (Ret [], w)
  | (name, imp) :: r =>
      match ld w imp with
      | (Raise e, w1) => (Raise e, w1)
      | (Ret m, w1) =>
          match exec_imports ld w1 r with
          | (Raise e, w2) => (Raise e, w2)
          | (Ret l, w2) => (Ret ((name, m) :: l), w2)
          end
      end
  end.

(** compiler.py:197-245. The module object is counted when it is complete
    (in the code it is created before it is executed; one whose execution
    fails is dropped). The body of a module (everything after the imports)
    does not load schemas. *)
Definition exec_module (ld : world -> str -> lres nat * world) (w : world) (f : path) (px : bool)
    (o : option opts) (src : source) (stmts : list (str * str)) : lres modl * world :=
  match exec_imports ld w stmts with
  | (Raise e, w1) => (Raise e, w1)
  | (Ret refs, w1) =>
      if src_exec src then (Ret (mkmodl f src px (default_options o) refs), w1) else (Raise LExec, w1)
  end.

Definition compile_file (ld : world -> str -> lres nat * world) (w : world) (f : path) (px : bool)
    (o : option opts) : lres nat * world :=
  match generate w f px o with
  | Raise e => (Raise e, w)
  | Ret (src, stmts) =>
      if px then
        let w0 := sys_add (sys_add w (tmpname f)) (extname f) in
        match exec_module ld w0 f px o src stmts with
        | (Raise e, w1) => (Raise e, w1)
        | (Ret m, w1) =>
            match sys_del w1 (extname f) with
            | (Raise e, w2) => (Raise e, w2)
            | (Ret _, w2) =>
                match sys_del w2 (tmpname f) with
                | (Raise e, w3) => (Raise e, w3)
                | (Ret _, w3) => let '(i, w4) := alloc w3 m in (Ret i, w4)
                end
            end
        end
      else
        match exec_module ld w f px o src stmts with
        | (Raise e, w1) => (Raise e, w1)
        | (Ret m, w1) => let '(i, w2) := alloc w1 m in (Ret i, w2)
        end
  end.

(** compiler.py:160-195, request.py:149. [fuel] is the depth of nested
    load_schema calls that Python's recursion limit allows. *)
Fixpoint load_schema (fuel : nat) (w : world) (a : args) (pyx : pyxarg) (o : option opts)
  : lres nat * world :=
  match fuel with
  | O => (Raise LRecursion, w)
  | S fuel' =>
      match getpyx w pyx with
      | Raise e => (Raise e, w)
      | Ret px =>
          match get_filename w a with
          | Raise e => (Raise e, w)
          | Ret f =>
              match lookup f (w_mods w) with
              | Some m => (Ret m, w)
              | None =>
                  match compile_file
                          (fun w' n => load_schema fuel' w' (by_importname n) (if px then PTrue else PFalse) None)
                          w f px o with
                  | (Raise e, w1) => (Raise e, w1)
                  | (Ret m, w1) => (Ret m, set_mods w1 (dict_set f m (w_mods w1)))
                  end
              end
          end
      end
  end.

(** ** Histories: loads (which may fail), edits of the file system, changes
    of the current directory *)
Inductive op :=
| OLoad (fuel : nat) (a : args) (pyx : pyxarg) (o : option opts)
| OWrite (f : path) (s : option source)
| OChdir (d : path).
Definition step (w : world) (x : op) : world :=
  match x with
  | OLoad fuel a pyx o => snd (load_schema fuel w a pyx o)
  | OWrite f s =>
      mkworld (fun p => if path_eq_dec p f then s else w_fs w p)
        (w_cwd w) (w_dirs w) (w_PYX w) (w_mods w) (w_heap w) (w_sys w)
  | OChdir d => mkworld (w_fs w) d (w_dirs w) (w_PYX w) (w_mods w) (w_heap w) (w_sys w)
  end.
Definition run (w : world) (ops : list op) : world := fold_left step ops w.

(** ** Specification *)

(** [imports w f n]: the schema file [f] imports [n], uses something of it,
    and [n] is not the C++ annotations file. *)
Definition imports (w : world) (f : path) (n : str) : Prop :=
  exists src i, w_fs w f = Some src /\ In i (src_imports src) /\ imp_node i <> None /\
    imp_name i = n /\ n <> lit "/capnp/c++.capnp".

(** [depends w f g]: loading [f] needs [g] *)
Definition depends (w : world) (f g : path) : Prop :=
  exists n, imports w f n /\ get_filename w (by_importname n) = Ret g.

Definition cached (w : world) (f : path) : Prop := lookup f (w_mods w) <> None.

(** [loadable w f o]: [f] is in the cache, or its source is good and all that
    it imports is found in the search path and loadable with the default
    options. Inductive: a file is not loadable because it depends on itself. *)
Inductive loadable (w : world) : path -> option opts -> Prop :=
| loadable_cached : forall f o, cached w f -> loadable w f o
| loadable_source : forall f o src stmts,
    generate w f false o = Ret (src, stmts) -> src_exec src = true ->
    (forall n, imports w f n -> exists g, get_filename w (by_importname n) = Ret g /\ loadable w g None) ->
    loadable w f o.

(** In pyx mode: the same, and moreover no two files that are being compiled
    at the same time have the same base name ([busy]: the base names of the
    files whose compilation is under way), and the two names used for the file
    in sys.modules are free. *)
Inductive loadable_pyx (w : world) : list str -> path -> option opts -> Prop :=
| loadable_pyx_cached : forall busy f o, cached w f -> loadable_pyx w busy f o
| loadable_pyx_source : forall busy f o src stmts,
    generate w f true o = Ret (src, stmts) -> src_exec src = true ->
    ~ In (modname_of f) busy ->
    ~ In (tmpname f) (w_sys w) -> ~ In (extname f) (w_sys w) ->
    (forall n, imports w f n -> exists g, get_filename w (by_importname n) = Ret g /\
       loadable_pyx w (modname_of f :: busy) g None) ->
    loadable_pyx w busy f o.

(** The Python variable of an import *)
Definition import_var (fname : str) : str :=
  lit "_" ++ replace 43 (lit "PLUS") (purebasename (local [] fname)) ++ lit "_capnp".
Definition used_imports (imps : list import_) : list (str * str) :=
  flat_map (fun i => match imp_node i with Some fname => [(fname, imp_name i)] | None => [] end) imps.
