(** Model of how the options of the code generator reach the generated module:
    annotate.py:123-187 (the Options class as it is generated),
    annotate_extended.py:36-96 (BoolOption.__bool__, TextType.parse,
    Options.from_dict, Options.combine), __main__.py:29-51 (parse_argv, after
    docopt), compiler/distutils.py:15-29 (setup.py), compiler/compiler.py:18-24
    and 72-80, compiler/module.py:33, compiler/request.py:91-103, and
    util.py:76-86 (check_version). *)
From Coq Require Import Strings.String Strings.Ascii.
From Verif Require Import Base Spec Builder Struct Case Options Loader.
From Coq Require Import Lists.List.
Local Notation length := Datatypes.length.
Local Open Scope list_scope.
Local Open Scope Z_scope.

(** A value found in a dictionary of options *)
Inductive pval := PBool (b : bool) | PInt (n : Z) | PStr (s : str).

(** ** The class Options (annotate.py) *)

(** annotate.py:161-173 (__new): eight bytes, each option xor-ed with its
    default *)
Definition opt_new (vc cc txt ird : Z) : res bytes :=
  let (buf, pos) := allocate [] 8 in
  do buf <- b_write Fh buf (pos + 0) (Z.lxor vc 2);
  do buf <- b_write Fh buf (pos + 2) (Z.lxor cc 2);
  do buf <- b_write Fh buf (pos + 4) (Z.lxor txt 0);
  b_write Fh buf (pos + 6) (Z.lxor ird 2).

(** annotate.py:129-159: the getters; _read_int16 of a struct with one data
    word (struct_.py:180-189) *)
Definition opt_read (buf : bytes) (offset dflt : Z) : res Z :=
  do v <- unpack_from Fh buf offset;
  Ok (if negb (dflt =? 0) then Z.lxor v dflt else v).
Definition get_version_check (o : bytes) := opt_read o 0 2.
Definition get_convert_case (o : bytes) := opt_read o 2 2.
Definition get_text_type (o : bytes) := opt_read o 4 0.
Definition get_include_reflection_data (o : bytes) := opt_read o 6 2.

(** annotate_extended.py:36-43: the truth value of a BoolOption *)
Definition bool_option (v : Z) : res bool :=
  if v =? 2 then Err ValueError else Ok (negb (v =? 0)).

(** annotate_extended.py:49-56; a value which is not a string is not equal to
    the literals either *)
Definition text_parse (v : pval) : res Z :=
  match v with
  | PStr s => if str_eqb s (lit "bytes") then Ok 1
              else if str_eqb s (lit "unicode") then Ok 2
              else Err ValueError
  | _ => Err ValueError
  end.

(** annotate_extended.py:71-79: the keyword arguments *)
Fixpoint dict_kwargs (d : list (str * pval)) : res (list (str * pval)) :=
  match d with
  | [] => Ok []
  | (key, value) :: r =>
      if str_eqb key (lit "version_check") || str_eqb key (lit "convert_case")
         || str_eqb key (lit "include_reflection_data")
      then do kw <- dict_kwargs r; Ok ((key, value) :: kw)
      else if str_eqb key (lit "text_type")
      then do t <- text_parse value; do kw <- dict_kwargs r; Ok ((key, PInt t) :: kw)
      else Err ValueError
  end.

(** a keyword argument, or its default (annotate.py:175) *)
Definition kwarg (kw : list (str * pval)) (key : str) (dflt : Z) : pval :=
  match find (fun e => str_eqb (fst e) key) kw with
  | Some (_, v) => v
  | None => PInt dflt
  end.
(** `x ^= 2`: numbers and booleans *)
Definition as_int (v : pval) : res Z :=
  match v with
  | PBool b => Ok (if b then 1 else 0)
  | PInt n => Ok n
  | PStr _ => Err TypeError
  end.

(** annotate.py:175-177 (__init__) *)
Definition opt_call (kw : list (str * pval)) : res bytes :=
  do vc <- as_int (kwarg kw (lit "version_check") 2);
  do cc <- as_int (kwarg kw (lit "convert_case") 2);
  do txt <- as_int (kwarg kw (lit "text_type") 0);
  do ird <- as_int (kwarg kw (lit "include_reflection_data") 2);
  opt_new vc cc txt ird.

(** annotate_extended.py:64-80 *)
Definition from_dict (d : list (str * pval)) : res bytes :=
  do kw <- dict_kwargs d; opt_call kw.

(** annotate_extended.py:82-96 on Options objects, the loop unrolled (the
    arithmetic is [Options.combine]) *)
Definition combine_field (get : bytes -> res Z) (notset : Z) (self other : bytes) : res Z :=
  do value <- get self;
  do otherval <- get other;
  Ok (if negb (otherval =? notset) then otherval else value).
Definition opt_combine (self other : bytes) : res bytes :=
  do vc <- combine_field get_version_check 2 self other;
  do cc <- combine_field get_convert_case 2 self other;
  do txt <- combine_field get_text_type 0 self other;
  do ird <- combine_field get_include_reflection_data 2 self other;
  opt_new vc cc txt ird.

(** ** Where the options come from *)

(** the command line, after docopt (__main__.py:1-14) *)
Record flags := mkflags {
  no_convert_case : bool; fl_text_type : str; no_pyx : bool;
  no_version_check : bool; no_reflection : bool }.

Inductive cres (A : Type) := Done (a : A) | SystemExit_ | Raised (e : exn).
Arguments Done {A} a. Arguments SystemExit_ {A}. Arguments Raised {A} e.

(** __main__.py:29-51 *)
Definition parse_argv (f : flags) : cres (pyxarg * bytes) :=
  if str_eqb (fl_text_type f) (lit "bytes") || str_eqb (fl_text_type f) (lit "unicode") then
    let pyx := if no_pyx f then PFalse else PAuto in
    match from_dict [(lit "version_check", PBool (negb (no_version_check f)));
                     (lit "convert_case", PBool (negb (no_convert_case f)));
                     (lit "text_type", PStr (fl_text_type f));
                     (lit "include_reflection_data", PBool (negb (no_reflection f)))] with
    | Ok o => Done (pyx, o)
    | Err e => Raised e
    end
  else SystemExit_.

(** compiler/distutils.py:21-25: dict.pop('pyx', 'auto'), the rest are options *)
Definition setup_options (d : list (str * pval)) : pval * res bytes :=
  (match find (fun e => str_eqb (fst e) (lit "pyx")) d with
   | Some (_, v) => v
   | None => PStr (lit "auto")
   end,
   from_dict (filter (fun e => negb (str_eqb (fst e) (lit "pyx"))) d)).

(** compiler.py:18-24 and 73-76: the options of the generator *)
Definition generator_options (o : option bytes) : res bytes :=
  do dflt <- opt_call [(lit "version_check", PBool true); (lit "convert_case", PBool true);
                       (lit "text_type", PInt 1); (lit "include_reflection_data", PBool true)];
  match o with
  | Some o => opt_combine dflt o
  | None => Ok dflt
  end.

(** ** The generated module *)

(** What the header of a module depends on: the version of capnpy that
    generated it (__capnpy_version__), whether it calls _check_version, whether
    it has reflection data *)
Record gmod := mkgmod { g_version : str; g_check : bool; g_reflection : bool }.

(** compiler/module.py:33 and compiler/request.py:92-103: the version check
    depends on the options of the generator, the reflection data on the
    options of the file ([ann]: its $Py.options annotation) *)
Definition header (lib_version : str) (o ann : option bytes) : res gmod :=
  do dflt <- generator_options o;
  do file <- match ann with Some a => opt_combine dflt a | None => Ok dflt end;
  do vc <- get_version_check dflt;
  do check <- bool_option vc;
  do ird <- get_include_reflection_data file;
  do refl <- bool_option ird;
  Ok (mkgmod lib_version check refl).

(** util.py:76-86: sys.modules afterwards, and whether ImportError is raised *)
Definition check_version (lib_version : str) (sys : list str) (modname version : str) : list str * bool :=
  if negb (str_eqb version lib_version)
  then (filter (fun n => negb (str_eqb n modname)) sys, false)
  else (sys, true).

(** `import modname`: a module which is already in sys.modules is not executed
    again; else it is put there and executed. If that raises, CPython removes
    a .py module itself and may leave an extension module ([ext]). The rest of
    the module ([body]) runs after the check. *)
Definition import_module (lib_version : str) (ext : bool) (sys : list str) (modname : str)
    (g : gmod) (body : bool) : list str * bool :=
  if existsb (str_eqb modname) sys then (sys, true)
  else
    let sys1 := modname :: sys in
    let (sys2, ok) := if g_check g then check_version lib_version sys1 modname (g_version g) else (sys1, true) in
    if ok && body then (sys2, true)
    else (if ext then sys2 else filter (fun n => negb (str_eqb n modname)) sys2, false).
