(** Model of capnpy/segment/_copy_list.py, of the write_item methods of
    capnpy/list.py and of the constructors generated in PYX mode, as compiled:
    the statements of Ctor.v executed with the builder of builder.pyx. *)
From Verif Require FloatBits.
From Verif Require Import Base Spec Ptr Segment Builder Copy Endof Struct List CopyList BuilderC CRead Ctor.
From Coq Require Import String.
Open Scope string_scope.
Open Scope Z_scope.

(** ** Lists, for any builder

    The text of CopyList.v again, with the operations of the builder as
    parameters: [w64] write_int64, [alist] alloc_list, [wint] and [wfloat]
    write_generic, [wtext] alloc_text or alloc_data, [winline]
    copy_inline_struct. *)
Section lists.
  Variable St : Type.
  Variable w64 : St -> Z -> Z -> res St.
  Variable alist : St -> Z -> Z -> Z -> Z -> res (St * Z).
  Variable wint : ifmt -> St -> Z -> pyval -> res St.
  Variable wfloat : bool -> St -> Z -> pyval -> res St.
  Variable wtext : bool -> St -> Z -> pyval -> res St.
  Variable winline : obj -> St -> Z -> res St.

  (** _copy_list.py:46-48 *)
  Fixpoint g_write_items (w : St -> Z -> pyval -> res St) (item_length : Z)
           (items : list pyval) (st : St) (pos : Z) : res St :=
    match items with
    | [] => Ok st
    | x :: r =>
        do st <- w st pos x;
        g_write_items w item_length r st (pos + item_length)
    end.

  (** _copy_list.py:22-48 and the write_item methods of list.py *)
  Fixpoint g_copy_list (t : itype) (st : St) (pos : Z) (lst : pyval) {struct t} : res St :=
    let write_item (st : St) (pos : Z) (x : pyval) : res St :=
      match t with
      | ITVoid => Ok st
      | ITBool => Err NotImplementedError
      | ITPrim f => wint f st pos x
      | ITFloat dbl => wfloat dbl st pos x
      | ITStruct _ _ =>
          match x with
          | PObj o => winline o st pos
          | _ => Err TypeError
          end
      | ITText additional_size => wtext (negb (additional_size =? 0)) st pos x
      | ITList inner => g_copy_list inner st pos x
      end in
    match lst with
    | PNone => w64 st pos 0
    | _ =>
        let item_length := it_length t in
        let size_tag := it_size_tag t in
        do item_count <- py_len lst;
        let body_length := item_length * item_count in
        do (st, pos) <-
           match t with
           | ITStruct data_size ptrs_size =>
               let total_words := (data_size + ptrs_size) * item_count in
               do (st, pos) <- alist st pos size_tag total_words (body_length + 8);
               let tag := new_struct item_count data_size ptrs_size in
               do st <- w64 st pos tag;
               Ok (st, pos + 8)
           | _ => alist st pos size_tag item_count body_length
           end;
        do items <- py_iter lst;
        g_write_items write_item item_length items st pos
    end.
End lists.

(** _copy_pointer.py:128-151 (_copy_struct_inline), for any builder *)
Definition g_inline (St : Type) (wslice : St -> Z -> bytes -> Z -> Z -> res St) (rd64 : seg -> Z -> res Z)
  (rec : seg -> Z -> Z -> St -> Z -> res St) (src : seg) (p src_pos : Z) (dst : St) (dst_pos : Z) : res St :=
  let src_pos := deref p src_pos in
  let data_size := struct_data_size p in
  let ptrs_size := struct_ptrs_size p in
  let ds := data_size * 8 in
  do _ <- check_bounds src ds src_pos;
  do dst <- wslice dst dst_pos (sbuf src) src_pos ds;
  g_many_ptrs St rd64 rec ptrs_size src (src_pos + ds) dst (dst_pos + ds).

(** ** The compiled operations *)
Section compiled.
  (** What PyByteArray_Resize leaves in the new memory (BuilderC.v) *)
  Variable junk : nat -> byte.
  (** What the conversion of a Python float to a C integer does: older
      versions of Cython truncate it, newer ones raise TypeError *)
  Variable trunc : Z -> res Z.
  Variable fuel : nat.

  (** Conversion to a C integer of the type of the parameter
      (builder.pyx:57-102). Objects with an __index__ are not modelled. *)
  Definition c_as_int (x : pyval) : res Z :=
    match x with
    | PInt z => Ok z
    | PBool b => Ok (Z.b2z b)
    | PFloat b => trunc b
    | _ => Err TypeError
    end.
  Definition c_wint (f : ifmt) (st : cb) (i : Z) (x : pyval) : res cb :=
    do z <- c_as_int x;
    c_write f st i z.

  (** builder.pyx:104-109 (write_float32, write_float64): conversion to a C
      double (__pyx_PyFloat_AsDouble), for float32 a C cast of that *)
  Definition c_wfloat (dbl : bool) (st : cb) (i : Z) (x : pyval) : res cb :=
    match as_float x with
    | Some b => c_store st i (fenc (float_fmt dbl) (if dbl then b else FloatBits.to32 b))
    | None => match x with PInt _ | PBool _ => Err OverflowError | _ => Err TypeError end
    end.

  (** The truth value of a Python object: the conversion to bint
      (builder.pyx:111) *)
  Definition c_truth (x : pyval) : res bool :=
    match x with
    | PNone => Ok false
    | PInt z => Ok (negb (z =? 0))
    | PBool b => Ok b
    | PFloat b => Ok (negb ((b =? 0) || (b =? 2 ^ 63)))
    | PBytes b => Ok (negb (blen b =? 0))
    | PList l => if l_count l <? 0 then Err ValueError else Ok (negb (l_count l =? 0))
    | PSeq l => Ok (negb (blen l =? 0))
    | PObj _ | PUndef | PBuilder | POther => Ok true
    end.

  (** builder.pyx:158-175 (alloc_text, alloc_data); the parameter has the type
      bytes *)
  Definition c_wtext (nul : bool) (st : cb) (pos : Z) (x : pyval) : res cb :=
    do s <- as_bytes x;
    do (st, _) <- c_alloc_text_tz junk st pos s (if nul then 1 else 0);
    Ok st.

  (** builder.pyx:177-184 (copy_from_struct) *)
  Definition c_copy_struct_arg (st : cb) (pos : Z) (x : pyval) : res cb :=
    match x with
    | PNone => c_write_long st pos 0
    | PObj o => c_copy_pointer junk fuel (o_seg o) (c_as_pointer o 0) 0 st pos
    | _ => Err TypeError
    end.

  (** list.py:300-306 (StructItemType.write_item), builder.pyx:190-201
      (copy_inline_struct) *)
  Definition c_winline (o : obj) (st : cb) (pos : Z) : res cb :=
    g_inline cb c_write_slice c_read_int64_fast (c_copy_pointer junk fuel) (o_seg o) (c_as_pointer o 0) 0 st pos.

  (** builder.pyx:203-204, _copy_list.py:22-48. The tag of a list of structs
      is a C long (new_struct as a macro); written by [c_write_long], which
      keeps the 64 low bits. Simplified: the items of a capnpy List are read
      as in pure-Python mode (the compiled reads agree with them on
      well-formed lists, C70). *)
  Definition c_copy_list : itype -> cb -> Z -> pyval -> res cb :=
    g_copy_list cb c_write_long (c_alloc_list junk) c_wint c_wfloat c_wtext c_winline.

  (** ** Executing the statements of a constructor (structor.py:63-205) *)
  Fixpoint c_exec_stmt (s : stmt) (st : env * cb) {struct s} : res (env * cb) :=
    let (e, buf) := st in
    match s with
    | SNone v => Ok (setv e v PNone, buf)
    | SIfDef v body =>
        do x <- lookup e v;
        match x with
        | PUndef => Ok (e, buf)
        | _ => (fix go l st := match l with
                               | [] => Ok st
                               | s :: r => do st <- c_exec_stmt s st; go r st
                               end) body (e, buf)
        end
    | SCheckTag v =>
        do x <- lookup e v;
        match x with
        | PNone => Ok (setv e v POther, buf)
        | _ => Err TypeError
        end
    | STag off val =>
        (* both arguments are literals: the C compiler converts the value *)
        do _ <- the_builder e;
        do buf <- c_store buf off (fenc Fh val);
        Ok (e, buf)
    | SUnpack vs g =>
        do x <- lookup e g;
        do xs <- py_iter x;
        match set_all e vs xs with
        | Some e' => Ok (e', buf)
        | None => Err ValueError
        end
    | SNull v dflt =>
        do x <- lookup e v;
        match x with
        | PNone => Ok (setv (setv e (v ++ "_is_null") (PInt 1)) (v ++ "_value") dflt, buf)
        | _ => Ok (setv (setv e (v ++ "_is_null") (PInt 0)) (v ++ "_value") x, buf)
        end
    | SXor v d =>
        do x <- lookup e v;
        do y <- py_xor x d;
        Ok (setv e v y, buf)
    | SWrite w off v =>
        do _ <- the_builder e;
        do i <- at_pos e off;
        do x <- lookup e v;
        do buf <- match w with
                  | WInt f => c_wint f buf i x
                  | WF32 => c_wfloat false buf i x
                  | WF64 => c_wfloat true buf i x
                  end;
        Ok (e, buf)
    | SWriteBool byteoff bitoff v =>
        do _ <- the_builder e;
        do x <- lookup e v;
        do b <- c_truth x;
        do buf <- c_write_bool buf byteoff bitoff b;
        Ok (e, buf)
    | SText nul off v =>
        do _ <- the_builder e;
        do i <- at_pos e off;
        do x <- lookup e v;
        do buf <- c_wtext nul buf i x;
        Ok (e, buf)
    | SStruct off v =>
        do _ <- the_builder e;
        do i <- at_pos e off;
        do x <- lookup e v;
        do buf <- c_copy_struct_arg buf i x;
        Ok (e, buf)
    | SList t off v =>
        do _ <- the_builder e;
        do i <- at_pos e off;
        do x <- lookup e v;
        do buf <- c_copy_list t buf i x;
        Ok (e, buf)
    | SRaise => Err NotImplementedError
    end.

  Fixpoint c_exec (l : list stmt) (st : env * cb) : res (env * cb) :=
    match l with
    | [] => Ok st
    | s :: r => do st <- c_exec_stmt s st; c_exec r st
    end.

  (** structor.py:50-61: __new with all the parameters bound. The variables
      [builder] and [pos] have C types (structor.py:53-54): a parameter of
      that name is an error of the Cython compiler, SyntaxError here. *)
  Definition c_run_new (sn : struct_node) (xs : list pyval) : res bytes :=
    do body <- gen sn;
    let names := map f_name (filter visible (sn_fields sn)) in
    if existsb (fun n => String.eqb n "builder" || String.eqb n "pos") names then Err SyntaxError else
    match set_all (fun _ => None) names xs with
    | None => Err TypeError
    | Some e =>
        let e := setv e "builder" PBuilder in
        let (st, pos) := c_allocate junk (c_init 512) ((sn_ds sn + sn_ps sn) * 8) in
        let e := setv e "pos" (PInt pos) in
        do (e, st) <- c_exec body (e, st);
        Ok (c_as_string st)
    end.

  (** compiler/struct_.py:160-169: Cls( ** kw) *)
  Definition c_ctor (sn : struct_node) (kw : list (string * pyval)) : res obj :=
    let fs := filter visible (sn_fields sn) in
    do xs <- bind_args (map f_name fs) (map (default None) fs) kw;
    do buf <- c_run_new sn xs;
    c_init_from_buffer {| sbuf := buf; soffs := None |} 0 (sn_ds sn) (sn_ps sn).

  (** compiler/struct_.py:171-204: Cls.new_foo( ** kw) *)
  Definition c_ctor_union (sn : struct_node) (tag : field) (kw : list (string * pyval)) : res obj :=
    let key := (f_name tag, f_order tag) in
    let all := filter visible (sn_fields sn) in
    let mine f := negb (is_member f) || same_field f key in
    let fs := filter mine all in
    do xs <- bind_args (map f_name fs) (map (default (Some key)) fs) kw;
    let args := combine (map f_name fs) xs in
    do buf <- c_run_new sn
       (map (fun f => match assoc args (f_name f) with Some x => x | None => PUndef end) all);
    c_init_from_buffer {| sbuf := buf; soffs := None |} 0 (sn_ds sn) (sn_ps sn).
End compiled.
