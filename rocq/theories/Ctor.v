(** Model of the code generated for the constructors and the getters of a
    struct class: compiler/fieldtree.py, compiler/structor.py,
    compiler/struct_.py:160-204, compiler/field.py, in pure-Python mode. The
    generated constructor is a list of statements ([stmt]); [exec] is what
    Python does with them. *)
From Verif Require FloatBits.
From Verif Require Import Base Spec Ptr Segment Builder Copy Endof Struct List CopyList.
From Coq Require Import String.
Open Scope string_scope.
Open Scope Z_scope.

(** ** Schemas *)

(** The types of the slots. Enums are written and read as int16
    (schema_extended.py:142, 150). *)
Inductive ftype :=
| TVoid | TPrim (f : ifmt) | TFloat32 | TFloat64 | TBool | TEnum
| TText | TData | TStruct | TList (t : itype) | TAny.

(** The schemas considered have passed the checks of the compiler: groups
    with $Py.nullable have the two fields isNull and value
    (annotate_extended.py:7-25), only scalar slots have explicit defaults
    (compiler/field.py:27-31).

    A field: its Python name (py_field_name), its codeOrder, its
    discriminantValue when it is part of a union, and
    - for a slot: type, offset (in units of its size; bits for bool; pointer
      index for pointers), hadExplicitDefault, the default value (numbers,
      bools as 0/1, bits for floats);
    - for a group: whether it has $Py.nullable, the discriminantOffset of its
      union if it has one, its fields. *)
Inductive field :=
| FSlot (name : string) (order : Z) (disc : option Z)
        (ty : ftype) (off : Z) (explicit : bool) (dflt : Z)
| FGroup (name : string) (order : Z) (disc : option Z)
         (nullable : bool) (utag : option Z) (fs : list field).

Definition f_name (f : field) : string := match f with FSlot n _ _ _ _ _ _ | FGroup n _ _ _ _ _ => n end.
Definition f_order (f : field) : Z := match f with FSlot _ o _ _ _ _ _ | FGroup _ o _ _ _ _ => o end.
Definition f_disc (f : field) : option Z := match f with FSlot _ _ d _ _ _ _ | FGroup _ _ d _ _ _ => d end.

(** schema_extended.py:130-131 *)
Definition is_member (f : field) : bool := match f_disc f with Some _ => true | None => false end.

Record struct_node := mksn {
  sn_ds : Z; sn_ps : Z;               (* dataWordCount, pointerCount *)
  sn_utag : option Z;                 (* discriminantOffset, when there is a union *)
  sn_fields : list field
}.

(** schema_extended.py:153-161 (get_size) *)
Definition ty_size (t : ftype) : Z :=
  match t with
  | TVoid | TBool => 0
  | TPrim f => fsize f
  | TFloat32 => 4
  | TFloat64 => 8
  | TEnum => 2
  | TText | TData | TStruct | TList _ | TAny => 8
  end.

(** Type.is_pointer *)
Definition ty_pointer (t : ftype) : bool :=
  match t with TText | TData | TStruct | TList _ | TAny => true | _ => false end.

(** structor.py:27-31 *)
Definition slot_offset (ds : Z) (t : ftype) (off : Z) : Z :=
  let offset := off * ty_size t in
  if ty_pointer t then offset + ds * 8 else offset.

(** fieldtree.py:27-34 (_add_children): fields that are left out *)
Definition visible (f : field) : bool :=
  match f with
  | FSlot _ _ None TVoid _ _ _ => false
  | _ => true
  end.

(** ** Default values of the parameters (fieldtree.py:113-132) *)

(** compiler/misc.py:84-86 (as_pyobj) and str() of it, evaluated *)
Definition slot_default (t : ftype) (d : Z) : pyval :=
  match t with
  | TVoid | TText | TData | TStruct | TList _ | TAny => PNone
  | TPrim _ | TEnum => PInt d
  | TBool => PBool (negb (d =? 0))
  | TFloat32 => PFloat (FloatBits.to64 d)
  | TFloat64 => PFloat d
  end.

(** fieldtree.py:94 and schema_extended.py:56-73: equality of fields *)
Definition same_field (f : field) (k : string * Z) : bool :=
  (f_name f =? fst k)%string && (f_order f =? snd k)%Z.

Fixpoint default (force : option (string * Z)) (f : field) : pyval :=
  let force_default := match force with Some k => same_field f k | None => false end in
  if is_member f && negb force_default then PUndef
  else
    match f with
    | FSlot _ _ _ t _ _ d => slot_default t d
    | FGroup _ _ _ nullable _ fs =>
        let defaults := (fix go l := match l with
                                     | [] => []
                                     | g :: r => if visible g then default force g :: go r else go r
                                     end) fs in
        if nullable then
          match fs, defaults with
          | FSlot _ _ _ _ _ _ d :: _, _ :: v :: _ => if negb (d =? 0) then PNone else v
          | _, _ => POther
          end
        else PSeq defaults
    end.

Definition defaults (force : option (string * Z)) (fs : list field) : list pyval :=
  map (default force) (filter visible fs).

(** ** The generated statements *)

Inductive wfmt := WInt (f : ifmt) | WF32 | WF64.

Inductive stmt :=
| SNone (v : string)                               (* v = None *)
| SIfDef (v : string) (body : list stmt)           (* if v is not _undefined: ... *)
| SCheckTag (v : string)                           (* v = _check_tag(v, '...') *)
| STag (off val : Z)                               (* builder.write_int16(off, val) *)
| SUnpack (vs : list string) (g : string)          (* vs, = g *)
| SNull (v : string) (dflt : pyval)                (* structor.py:139-147 *)
| SXor (v : string) (d : pyval)                    (* v ^= d *)
| SWrite (w : wfmt) (off : Z) (v : string)         (* builder.write_...(pos + off, v) *)
| SWriteBool (byteoff bitoff : Z) (v : string)     (* builder.write_bool(byteoff, bitoff, v) *)
| SText (nul : bool) (off : Z) (v : string)        (* builder.alloc_text/alloc_data(pos + off, v) *)
| SStruct (off : Z) (v : string)                   (* builder.copy_from_struct(pos + off, ..., v) *)
| SList (t : itype) (off : Z) (v : string)         (* builder.copy_from_list(pos + off, t, v) *)
| SRaise.                                          (* raise NotImplementedError *)

(** fieldtree.py:95-97 *)
Definition varname (prefix name : string) : string :=
  match prefix with EmptyString => name | _ => prefix ++ "_" ++ name end.

(** structor.py:58 *)
Definition curtag (union_varname : string) : string := union_varname ++ "__curtag".

(** structor.py:151-205: the handlers of the slots *)
Definition emit_slot (ds : Z) (v : string) (t : ftype) (off : Z) (explicit : bool) (d : Z) : list stmt :=
  let offset := slot_offset ds t off in
  let xor := if explicit then [SXor v (slot_default t d)] else [] in
  match t with
  | TText => [SText true offset v]
  | TData => [SText false offset v]
  | TStruct => [SStruct offset v]
  | TList it => [SList it offset v]
  | TPrim f => xor ++ [SWrite (WInt f) offset v]
  | TEnum => xor ++ [SWrite (WInt Fh) offset v]
  | TFloat32 => xor ++ [SWrite WF32 offset v]
  | TFloat64 => xor ++ [SWrite WF64 offset v]
  | TBool => xor ++ [SWriteBool (off / 8) (off mod 8) v]
  | TVoid => []
  | TAny => [SRaise]
  end%list.

(** structor.py:63-149 (handle_node, _handle_node, handle_group,
    handle_nullable); [union]: varname and byte offset of the union of the
    parent *)
Fixpoint emit_field (ds : Z) (union : option (string * Z)) (prefix : string) (f : field) : list stmt :=
  let v := varname prefix (f_name f) in
  let body :=
    match f with
    | FSlot _ _ _ t off explicit d => emit_slot ds v t off explicit d
    | FGroup _ _ _ nullable utag fs =>
        let union' := match utag with Some u => Some (v, u * 2)%Z | None => None end in
        let children := (fix go l := match l with
                                     | [] => []
                                     | g :: r => if visible g then emit_field ds union' v g ++ go r else go r
                                     end) fs in
        if nullable then
          match filter visible fs with
          | _ :: value :: _ => SNull v (default None value) :: children
          | _ => [SRaise]
          end
        else
          SUnpack (map (fun g => varname v (f_name g)) (filter visible fs)) v :: children
    end%list in
  match f_disc f with
  | Some d =>
      match union with
      | Some (u, off) => [SIfDef v (SCheckTag (curtag u) :: STag off d :: body)]
      | None => [SRaise]
      end
  | None => body
  end.

Definition emit_fields (ds : Z) (union : option (string * Z)) (prefix : string) (fs : list field) : list stmt :=
  flat_map (emit_field ds union prefix) (filter visible fs).

(** fieldtree.py:63-68 (all_unions): the variables of the unions *)
Fixpoint unions_of (prefix : string) (f : field) : list string :=
  match f with
  | FSlot _ _ _ _ _ _ _ => []
  | FGroup n _ _ _ utag fs =>
      let v := varname prefix n in
      (match utag with Some _ => [v] | None => [] end) ++
      (fix go l := match l with
                   | [] => []
                   | g :: r => if visible g then unions_of v g ++ go r else go r
                   end) fs
  end%list.

Definition all_unions (sn : struct_node) : list string :=
  ((match sn_utag sn with Some _ => ["anonymous"] | None => [] end) ++
   flat_map (unions_of "") (filter visible (sn_fields sn)))%list.

(** structor.py:105-117: for a group without visible fields the statement is
    ", = group", which is not Python *)
Fixpoint parses (f : field) : bool :=
  match f with
  | FSlot _ _ _ _ _ _ _ => true
  | FGroup _ _ _ nullable _ fs =>
      (nullable || existsb visible fs) &&
      (fix go l := match l with
                   | [] => true
                   | g :: r => (negb (visible g) || parses g) && go r
                   end) fs
  end.

(** compiler/struct_.py:164, 200: the parameters follow [self] in __init__ and
    [cls] in the new_foo of a union; the same name twice is a SyntaxError when
    the generated module is loaded *)
Definition params_ok (sn : struct_node) : bool :=
  let top := filter visible (sn_fields sn) in
  forallb (fun f => negb (f_name f =? "self")%string &&
                    negb (existsb is_member top && (f_name f =? "cls")%string)) top.

(** structor.py:33-61 (emit): the body after the allocation; or ValueError at
    compile time; or SyntaxError when the generated module is loaded *)
Definition gen (sn : struct_node) : res (list stmt) :=
  let argnames := map f_name (filter visible (sn_fields sn)) in
  if if List.list_eq_dec String.string_dec (nodup String.string_dec argnames) argnames then true else false then
    if forallb parses (filter visible (sn_fields sn)) && params_ok sn then
    let union := match sn_utag sn with Some u => Some ("anonymous", u * 2)%Z | None => None end in
    Ok (map (fun u => SNone (curtag u)) (all_unions sn) ++
        emit_fields (sn_ds sn) union "" (sn_fields sn))%list
    else Err SyntaxError
  else Err ValueError.

(** ** Executing them *)

Definition env := string -> option pyval.
Definition lookup (e : env) (v : string) : res pyval :=
  match e v with Some x => Ok x | None => Err NameError end.
Definition setv (e : env) (v : string) (x : pyval) : env :=
  fun w => if String.eqb w v then Some x else e w.

(** builder.write_...: the name [builder] must still be the builder *)
Definition the_builder (e : env) : res unit :=
  match e "builder" with
  | Some PBuilder => Ok tt
  | Some _ => Err AttributeError
  | None => Err NameError
  end.
(** [pos + off] *)
Definition at_pos (e : env) (off : Z) : res Z :=
  do p <- lookup e "pos";
  match p with
  | PInt z => Ok (z + off)%Z
  | PBool b => Ok (Z.b2z b + off)%Z
  | _ => Err TypeError
  end.

(** Python's [a ^ b] on ints and bools (bool ^ bool is a bool) *)
Definition py_xor (a b : pyval) : res pyval :=
  match a, b with
  | PBool x, PBool y => Ok (PBool (xorb x y))
  | PInt x, PInt y => Ok (PInt (Z.lxor x y))
  | PBool x, PInt y => Ok (PInt (Z.lxor (Z.b2z x) y))
  | PInt x, PBool y => Ok (PInt (Z.lxor x (Z.b2z y)))
  | _, _ => Err TypeError
  end.

(** builder.py:25-53 *)
Definition write_scalar (w : wfmt) (buf : bytes) (i : Z) (x : pyval) : res bytes :=
  match w, x with
  | WInt f, _ => do z <- as_int x; b_write f buf i z
  | WF32, _ => write_float false buf i x
  | WF64, _ => write_float true buf i x
  end.

(** the value of write_bool must be an int *)
Definition as_shift (x : pyval) : res Z :=
  match x with
  | PInt z => Ok z
  | PBool b => Ok (Z.b2z b)
  | _ => Err TypeError
  end.

(** assigning the items of a sequence to variables *)
Fixpoint set_all (e : env) (vs : list string) (xs : list pyval) : option env :=
  match vs, xs with
  | [], [] => Some e
  | v :: vs, x :: xs => set_all (setv e v x) vs xs
  | _, _ => None
  end.

Fixpoint exec_stmt (fuel : nat) (s : stmt) (st : env * bytes) {struct s} : res (env * bytes) :=
  let (e, buf) := st in
  match s with
  | SNone v => Ok (setv e v PNone, buf)
  | SIfDef v body =>
      do x <- lookup e v;
      match x with
      | PUndef => Ok (e, buf)
      | _ => (fix go l st := match l with
                             | [] => Ok st
                             | s :: r => do st <- exec_stmt fuel s st; go r st
                             end) body (e, buf)
      end
  | SCheckTag v =>
      (* struct_.py:19-23 (check_tag) *)
      do x <- lookup e v;
      match x with
      | PNone => Ok (setv e v POther, buf)
      | _ => Err TypeError
      end
  | STag off val =>
      do _ <- the_builder e;
      do buf <- b_write Fh buf off val;
      Ok (e, buf)
  | SUnpack vs g =>
      do x <- lookup e g;
      do xs <- py_iter x;
      match set_all e vs xs with
      | Some e' => Ok (e', buf)
      | None => Err ValueError
      end
  | SNull v dflt =>
      do x <- lookup e v;
      match x with
      | PNone => Ok (setv (setv e (v ++ "_is_null") (PInt 1)) (v ++ "_value") dflt, buf)
      | _ => Ok (setv (setv e (v ++ "_is_null") (PInt 0)) (v ++ "_value") x, buf)
      end
  | SXor v d =>
      do x <- lookup e v;
      do y <- py_xor x d;
      Ok (setv e v y, buf)
  | SWrite w off v =>
      do _ <- the_builder e;
      do i <- at_pos e off;
      do x <- lookup e v;
      do buf <- write_scalar w buf i x;
      Ok (e, buf)
  | SWriteBool byteoff bitoff v =>
      do _ <- the_builder e;
      do x <- lookup e v;
      do z <- as_shift x;
      do buf <- write_bool buf byteoff bitoff z;
      Ok (e, buf)
  | SText nul off v =>
      do _ <- the_builder e;
      do i <- at_pos e off;
      do x <- lookup e v;
      do s <- as_bytes x;
      do (buf, _) <- (if nul then alloc_text buf i s else alloc_data buf i s);
      Ok (e, buf)
  | SStruct off v =>
      do _ <- the_builder e;
      do i <- at_pos e off;
      do x <- lookup e v;
      do buf <- copy_struct_arg fuel buf i x;
      Ok (e, buf)
  | SList t off v =>
      do _ <- the_builder e;
      do i <- at_pos e off;
      do x <- lookup e v;
      do buf <- copy_from_list fuel t buf i x;
      Ok (e, buf)
  | SRaise => Err NotImplementedError
  end.

Fixpoint exec (fuel : nat) (l : list stmt) (st : env * bytes) : res (env * bytes) :=
  match l with
  | [] => Ok st
  | s :: r => do st <- exec_stmt fuel s st; exec fuel r st
  end.

(** ** Calling a constructor *)

(** Keyword arguments: every parameter takes its argument or its default;
    an unknown name is a TypeError (positional arguments are the keyword
    arguments of the first parameters; the same name twice is a SyntaxError) *)
Definition assoc (l : list (string * pyval)) (n : string) : option pyval :=
  match find (fun p => String.eqb (fst p) n) l with Some p => Some (snd p) | None => None end.
Definition bind_args (names : list string) (dflts : list pyval) (kw : list (string * pyval)) : res (list pyval) :=
  if forallb (fun p => existsb (String.eqb (fst p)) names) kw then
    Ok (map (fun nd => match assoc kw (fst nd) with Some x => x | None => snd nd end) (combine names dflts))
  else Err TypeError.

(** The body of __new (structor.py:51-61) with all the parameters bound *)
Definition run_new (fuel : nat) (sn : struct_node) (xs : list pyval) : res bytes :=
  do body <- gen sn;
  let names := map f_name (filter visible (sn_fields sn)) in
  match set_all (fun _ => None) names xs with
  | None => Err TypeError
  | Some e =>
      let e := setv e "builder" PBuilder in
      let (buf, pos) := allocate [] ((sn_ds sn + sn_ps sn) * 8) in
      let e := setv e "pos" (PInt pos) in
      do (e, buf) <- exec fuel body (e, buf);
      Ok buf
  end.

(** compiler/struct_.py:160-169 (_emit_init): Cls( ** kw) *)
Definition ctor (fuel : nat) (sn : struct_node) (kw : list (string * pyval)) : res obj :=
  let fs := filter visible (sn_fields sn) in
  do xs <- bind_args (map f_name fs) (map (default None) fs) kw;
  do buf <- run_new fuel sn xs;
  init_from_buffer {| sbuf := buf; soffs := None |} 0 (sn_ds sn) (sn_ps sn).

(** compiler/struct_.py:171-204: Cls.new_foo( ** kw); the other members of the
    union are passed as _undefined *)
Definition ctor_union (fuel : nat) (sn : struct_node) (tag : field) (kw : list (string * pyval)) : res obj :=
  let key := (f_name tag, f_order tag) in
  let all := filter visible (sn_fields sn) in
  let mine f := negb (is_member f) || same_field f key in
  let fs := filter mine all in
  do xs <- bind_args (map f_name fs) (map (default (Some key)) fs) kw;
  let args := combine (map f_name fs) xs in
  do buf <- run_new fuel sn
     (map (fun f => match assoc args (f_name f) with Some x => x | None => PUndef end) all);
  init_from_buffer {| sbuf := buf; soffs := None |} 0 (sn_ds sn) (sn_ps sn).

(** ** Getters (compiler/field.py) *)

(** What a getter returns; floats are their bits *)
Inductive gval :=
| GNone | GInt (z : Z) | GBool (b : bool) | GF32 (bits : Z) | GF64 (bits : Z)
| GBytes (b : bytes) | GObj (o : obj) | GList (l : lobj) | GAny (off : Z).

(** field.py:16-19 and struct_.py:277-281; [u]: discriminantOffset of the class *)
Definition ensure_union (o : obj) (u : option Z) (f : field) : res unit :=
  match f_disc f, u with
  | None, _ => Ok tt
  | Some d, Some u => o_ensure_union o (u * 2) d
  | Some _, None => Err TypeError
  end.

(** struct_.py:160-165 (which), as a number *)
Definition which (o : obj) (u : option Z) : res Z :=
  match u with Some u => o_which o (u * 2) | None => Err TypeError end.

(** field.py:212-218 *)
Definition has_slot (o : obj) (off : Z) : res bool :=
  do p <- o_read_fast_ptr o (off * 8);
  Ok (negb (p =? 0)).

(** Python's [x == 0] on a float: the bits of 0.0 and -0.0 *)
Definition float_zero (sign : Z) (bits : Z) : bool := (bits =? 0) || (bits =? 2 ^ sign).

(** The property of a slot: field.py:59-210 *)
Definition read_slot (o : obj) (t : ftype) (off d : Z) : res gval :=
  match t with
  | TVoid => Ok GNone
  | TPrim f =>
      do v <- o_read_primitive o (off * fsize f) f;
      Ok (GInt (if negb (d =? 0) then Z.lxor v d else v))
  | TEnum =>
      do v <- o_read_primitive o (off * 2) Fh;
      Ok (GInt (if negb (d =? 0) then Z.lxor v d else v))
  | TFloat32 =>
      do v <- o_read_primitive o (off * 4) FI;
      if negb (float_zero 31 d) then Err TypeError else Ok (GF32 v)
  | TFloat64 =>
      do v <- o_read_primitive o (off * 8) FQ;
      if negb (float_zero 63 d) then Err TypeError else Ok (GF64 v)
  | TBool =>
      do v <- o_read_bit o (off / 8) (Z.shiftl 1 (off mod 8));
      Ok (GBool (if negb (d =? 0) then xorb v true else v))
  | TText =>
      do b <- o_read_data o (off * 8) None (-1);
      Ok (match b with None => GNone | Some b => GBytes b end)
  | TData =>
      do b <- o_read_data o (off * 8) None 0;
      Ok (match b with None => GNone | Some b => GBytes b end)
  | TStruct =>
      do x <- o_read_struct o (off * 8);
      Ok (match x with None => GNone | Some o' => GObj o' end)
  | TList it =>
      do x <- o_read_list o (off * 8) it;
      Ok (match x with None => GNone | Some l => GList l end)
  | TAny =>
      do h <- has_slot o off;
      Ok (if h then GAny (off * 8) else GNone)
  end.

(** obj.foo for a slot; TypeError stands for a group (not used) *)
Definition get_slot (o : obj) (u : option Z) (f : field) : res gval :=
  match f with
  | FSlot _ _ _ t off _ d =>
      do _ <- ensure_union o u f;
      read_slot o t off d
  | FGroup _ _ _ _ _ _ => Err TypeError
  end.

(** field.py:240-246: obj.group (obj._group for a nullable one) *)
Definition get_group (o : obj) (u : option Z) (f : field) : res obj :=
  do _ <- ensure_union o u f;
  init_from_buffer (o_seg o) (o_off o) (o_ds o) (o_ps o).

(** The truth value of what a getter returns (a list has a length; structs and
    AnyPointer have neither a length nor a truth value of their own) *)
Definition truthy (g : gval) : bool :=
  match g with
  | GNone => false
  | GInt z => negb (z =? 0)
  | GBool b => b
  | GF32 b => negb (float_zero 31 b)
  | GF64 b => negb (float_zero 63 b)
  | GBytes b => match b with [] => false | _ => true end
  | GList l => negb (l_count l =? 0)
  | GObj _ | GAny _ => true
  end.

(** field.py:232-237: g = self._x; None if g.is_null else g.value *)
Definition get_nullable (o : obj) (u : option Z) (f : field) : res gval :=
  match f with
  | FGroup _ _ _ true utag fs =>
      do g <- get_group o u f;
      match find (fun x => String.eqb (f_name x) "is_null") fs, find (fun x => String.eqb (f_name x) "value") fs with
      | Some fi, Some fv =>
          do n <- get_slot g utag fi;
          if truthy n then Ok GNone else get_slot g utag fv
      | _, _ => Err AttributeError
      end
  | _ => Err TypeError
  end.

(** field.py:112-115, 138-141, 173-179, 192-198: obj.get_foo(). For text and
    data there is no union check. *)
Definition get_method (o : obj) (u : option Z) (f : field) : res gval :=
  match f with
  | FSlot _ _ _ TText off _ _ =>
      do b <- o_read_data o (off * 8) (Some []) (-1);
      Ok (match b with None => GNone | Some b => GBytes b end)
  | FSlot _ _ _ TData off _ _ =>
      do b <- o_read_data o (off * 8) (Some []) 0;
      Ok (match b with None => GNone | Some b => GBytes b end)
  | FSlot _ _ _ TStruct _ _ _ =>
      do r <- get_slot o u f;
      match r with
      | GNone =>
          do e <- init_from_buffer {| sbuf := []; soffs := None |} 0 0 0;
          Ok (GObj e)
      | _ => Ok r
      end
  | FSlot _ _ _ (TList it) _ _ _ =>
      do r <- get_slot o u f;
      match r with
      | GNone =>
          do l <- list_init {| sbuf := []; soffs := None |} 0 0 0 it;
          Ok (GList l)
      | _ => Ok r
      end
  | _ => Err AttributeError
  end.

(** field.py:253-274 (_emit_ctor_like): Cls.Group( ** kw) returns the tuple of
    its arguments *)
Definition group_ctor (fs : list field) (kw : list (string * pyval)) : res pyval :=
  let fs := filter visible fs in
  do xs <- bind_args (map f_name fs) (map (default None) fs) kw;
  Ok (PSeq xs).
