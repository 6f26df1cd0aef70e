(** Model of the reading side of the compiled (PYX) library: segment/base.pyx,
    segment/segment.py with segment.pxd, struct_.py with struct_.pxd, list.py
    with list.pxd, segment/endof.py with endof.pxd.

    These are the same Python sources as the ones of Segment.v, Struct.v,
    List.v and Endof.v (except base.pyx), compiled by Cython 0.29 (the version
    setup.py asks for) with the declarations of the .pxd files. What changes:

    - a variable declared [long] or [Py_ssize_t] is a 64-bit number, and its
      arithmetic wraps around ([c_add], [c_mul]; C leaves signed overflow
      undefined, CPython extensions are built with -fwrapv);
    - pointer functions are the macros of ptr.h (Ptr.v, second half);
    - a read of memory is not checked by the language: outside of the buffer
      it is [MemFault];
    - a [cdef]/[cpdef] function with a C return type and no [except] clause
      cannot raise: Cython prints the exception, ignores it, and returns 0
      ([swallow]);
    - a function declared [except v] whose result happens to be [v] looks to
      its caller like one which raised: as no exception is set, the
      interpreter reports SystemError ([except_]). [except? v] checks whether
      an exception is really set and has no such problem. *)
From Verif Require Import Base Spec Ptr Segment Builder Copy Endof Struct List.

(** no [except] clause *)
Definition swallow (r : res Z) : res Z :=
  match r with
  | Ok v => Ok v
  | Err MemFault => Err MemFault
  | Err OutOfFuel => Err OutOfFuel
  | Err _ => Ok 0
  end.

(** [except v] *)
Definition except_ (v : Z) (r : res Z) : res Z :=
  match r with
  | Ok x => if x =? v then Err SystemError else Ok x
  | Err e => Err e
  end.

(** a Python integer assigned to a C long *)
Definition to_long (x : Z) : res Z := if in_fmtb Fq x then Ok x else Err OverflowError.

(** ** segment/base.pyx *)

(** base.pyx:37-46 (check_bounds) *)
Definition c_check_bounds (s : seg) (size offset : Z) : res unit :=
  if (offset <? 0) || (blen (sbuf s) <? c_add offset size) then Err IndexError else Ok tt.

(** the C expression [( *(T* )(self.cbuf+offset))] *)
Definition c_load (f : ifmt) (s : seg) (offset : Z) : res Z :=
  if (0 <=? offset) && (offset + fsize f <=? blen (sbuf s))
  then Ok (fdec f (sub (sbuf s) offset (fsize f)))
  else Err MemFault.

(** base.pyx:48-131 (read_primitive, read_int64, ..., read_uint8): all
    declared [except?] or returning an object; read_uint64_magic gives the
    same number as read_uint64 *)
Definition c_read_primitive (s : seg) (offset : Z) (f : ifmt) : res Z :=
  do _ <- c_check_bounds s (fsize f) offset;
  c_load f s offset.

(** ** segment/segment.py + segment.pxd *)

(** segment.py:17-31, segment.pxd:8: [cpdef long read_ptr], no except clause *)
Definition c_read_ptr (s : seg) (offset : Z) : res Z := swallow (c_read_primitive s offset Fq).

(** segment.py:33-34 and 82-117, segment.pxd:9: [cpdef read_far_ptr] returns
    an object. The sum of the segment start (a Python integer) and the far
    offset is made by Python and converted to a long. *)
Definition c_read_far_ptr (s : seg) (ofs : Z) : res (Z * Z) :=
  match soffs s with
  | None => Err ValueError
  | Some t =>
      do p <- c_read_ptr s ofs;
      do segment_start <- offsets_get t (C_FAR_TARGET p);
      do ofs <- to_long (segment_start + c_mul (C_FAR_OFFSET p) 8);
      if C_FAR_LANDING_PAD p =? 0 then
        do p <- c_read_ptr s ofs;
        Ok (ofs, p)
      else
        do p <- c_read_ptr s ofs;
        do ptag <- c_read_ptr s (c_add ofs 8);
        do _ <- py_assert (C_KIND p =? FAR);
        do _ <- py_assert (C_FAR_LANDING_PAD p =? 0);
        do _ <- py_assert (C_OFFSET ptag =? 0);
        do segment_start <- offsets_get t (C_FAR_TARGET p);
        do ofs <- to_long (segment_start + c_mul (C_FAR_OFFSET p) 8);
        Ok (c_add ofs (-8), ptag)
  end.

(** segment.py:36-50, segment.pxd:11-12 (object result) *)
Definition c_read_str (s : seg) (p ofs : Z) (default_ : option bytes) (additional_size : Z)
  : res (option bytes) :=
  if p =? 0 then Ok default_
  else
    do _ <- py_assert (C_KIND p =? LIST);
    do _ <- py_assert (C_LIST_SIZE_TAG p =? LIST_SIZE_8);
    let start := C_DEREF p ofs in
    let end_ := c_add (c_add start (C_LIST_ITEM_COUNT p)) additional_size in
    Ok (Some (py_slice (sbuf s) start end_)).

(** ** struct_.py + struct_.pxd *)

(** struct_.py:53-60; the attributes are C longs (struct_.pxd:17-20); the
    comparisons are between longs and Py_ssize_t *)
Definition c_init_from_buffer (s : seg) (offset data_size ptrs_size : Z) : res obj :=
  let o := {| o_seg := s; o_off := offset; o_ptrs := c_add offset (c_mul data_size 8);
              o_ds := data_size; o_ps := ptrs_size |} in
  do _ <- py_assert (c_add (o_off o) (c_mul data_size 8) <=? blen (sbuf s));
  do _ <- py_assert (c_add (o_ptrs o) (c_mul ptrs_size 8) <=? blen (sbuf s));
  Ok o.

(** struct_.py:62-67 *)
Definition c_init_from_pointer (s : seg) (offset p : Z) : res obj :=
  do _ <- py_assert (C_KIND p =? STRUCT);
  c_init_from_buffer s (C_DEREF p offset) (C_STRUCT_DATA_SIZE p) (C_STRUCT_PTRS_SIZE p).

(** struct_.py:172-178, struct_.pxd:29 ([cpdef long _as_pointer]); nothing in
    it can raise *)
Definition c_as_pointer (o : obj) (offset : Z) : Z :=
  C_NEW_STRUCT (c_add (c_add (o_off o) (- offset)) (-8) / 8) (o_ds o) (o_ps o).

(** struct_.py:180-184, struct_.pxd:27 ([cpdef long _read_fast_ptr]) *)
Definition c_o_read_fast_ptr (o : obj) (offset : Z) : res Z :=
  swallow (if c_mul (o_ps o) 8 <=? offset then Ok 0
           else c_read_ptr (o_seg o) (c_add (o_ptrs o) offset)).

(** struct_.py:186-189 *)
Definition c_o_read_far_ptr (o : obj) (offset : Z) : res (Z * Z) :=
  if c_mul (o_ps o) 8 <=? offset then Ok (offset, 0)
  else c_read_far_ptr (o_seg o) (c_add (o_ptrs o) offset).

(** struct_.py:191-195 (object result) *)
Definition c_o_read_primitive (o : obj) (offset : Z) (f : ifmt) : res Z :=
  if c_mul (o_ds o) 8 <=? offset then Ok 0
  else c_read_primitive (o_seg o) (c_add (o_off o) offset) f.

(** struct_.py:197-201, struct_.pxd:26 ([cpdef long _read_int16]) *)
Definition c_o_read_int16 (o : obj) (offset : Z) : res Z :=
  swallow (if c_mul (o_ds o) 8 <=? offset then Ok 0
           else c_read_primitive (o_seg o) (c_add (o_off o) offset) Fh).

(** struct_.py:203-205: not declared in the .pxd, hence a Python method *)
Definition c_o_read_bit (o : obj) (offset bitmask : Z) : res bool :=
  do val <- c_o_read_primitive o offset FB;
  Ok (negb (Z.land val bitmask =? 0)).

(** struct_.py:167-170, struct_.pxd:57 ([cpdef long __which__ except -1]);
    the specialised version of a generated class (compiler/struct_.py:133-138)
    is declared in the same way *)
Definition c_o_which (o : obj) (tag_offset : Z) : res Z := except_ (-1) (c_o_read_int16 o tag_offset).

(** struct_.py:277-281 (object result) *)
Definition c_o_ensure_union (o : obj) (tag_offset expected_tag : Z) : res unit :=
  do w <- c_o_which o tag_offset;
  if w =? expected_tag then Ok tt else Err ValueError.

(** struct_.py:212-217, 229-234, 262-266; [offset] is a long, the tuple
    returned by _read_far_ptr holds longs *)
Definition c_o_resolve (o : obj) (offset : Z) : res (Z * Z) :=
  do p <- c_o_read_fast_ptr o offset;
  if C_KIND p =? FAR then c_o_read_far_ptr o offset
  else Ok (c_add offset (o_ptrs o), p).

(** struct_.py:207-222 *)
Definition c_o_read_struct (o : obj) (offset : Z) : res (option obj) :=
  do (offset, p) <- c_o_resolve o offset;
  if p =? 0 then Ok None
  else
    do _ <- py_assert (C_KIND p =? STRUCT);
    do o' <- c_init_from_pointer (o_seg o) offset p;
    Ok (Some o').

(** struct_.py:261-267 *)
Definition c_o_read_data (o : obj) (offset : Z) (default_ : option bytes) (additional_size : Z)
  : res (option bytes) :=
  do (offset, p) <- c_o_resolve o offset;
  c_read_str (o_seg o) p offset default_ additional_size.

(** ** list.py + list.pxd *)

(** list.py:29-33, 40-52 (object results; the attributes are longs) *)
Definition c_list_init (s : seg) (offset_ size_tag item_count : Z) (t : itype) : res lobj :=
  if size_tag =? LIST_SIZE_COMPOSITE then
    do tag <- c_read_ptr s offset_;
    Ok {| l_seg := s; l_off := offset_; l_stag := size_tag; l_tag := tag;
          l_count := C_OFFSET tag;
          l_len := c_mul (c_add (C_STRUCT_DATA_SIZE tag) (C_STRUCT_PTRS_SIZE tag)) 8;
          l_ioff := 8; l_it := t |}
  else
    Ok {| l_seg := s; l_off := offset_; l_stag := size_tag; l_tag := -1;
          l_count := item_count; l_len := pyx_list_item_length size_tag;
          l_ioff := 0; l_it := t |}.

(** struct_.py:224-242 *)
Definition c_o_read_list (o : obj) (offset : Z) (t : itype) : res (option lobj) :=
  do (offset, p) <- c_o_resolve o offset;
  if p =? 0 then Ok None
  else
    do _ <- py_assert (C_KIND p =? LIST);
    do l <- c_list_init (o_seg o) (C_DEREF p offset) (C_LIST_SIZE_TAG p) (C_LIST_ITEM_COUNT p) t;
    Ok (Some l).

(** list.py:165-166, list.pxd:32 ([cpdef long offset_for_item]) *)
Definition c_offset_for_item (l : lobj) (i : Z) : Z :=
  c_add (c_add (l_off l) (l_ioff l)) (c_mul i (l_len l)).

(** the far pointer step of list.py:327-328 and 373-374 *)
Definition c_l_resolve (l : lobj) (offset : Z) : res (Z * Z) :=
  do p <- c_read_ptr (l_seg l) offset;
  if C_KIND p =? FAR then c_read_far_ptr (l_seg l) offset else Ok (offset, p).

(** list.py:193-194, 215-219, 245-247, 290-295, 324-329, 370-381 (read_item;
    [cpdef read_item(self, List lst, long offset)]: the index is a long) *)
Definition c_read_item (l : lobj) (i : Z) : res item :=
  match l_it l with
  | ITVoid => Ok INone
  | ITBool =>
      let byteoffset := i / 8 in
      let bitoffset := i mod 8 in
      let bitmask := Z.shiftl 1 bitoffset in
      do value <- c_read_primitive (l_seg l) (c_add (l_off l) byteoffset) Fb;
      Ok (IBool (negb (Z.land value bitmask =? 0)))
  | ITPrim f =>
      do v <- c_read_primitive (l_seg l) (c_add (l_off l) (c_mul i (l_len l))) f;
      Ok (IInt v)
  | ITFloat dbl =>
      do v <- c_read_primitive (l_seg l) (c_add (l_off l) (c_mul i (l_len l))) (float_fmt dbl);
      Ok (IFloat dbl v)
  | ITStruct _ _ =>
      do o <- c_init_from_buffer (l_seg l) (c_offset_for_item l i)
                (C_STRUCT_DATA_SIZE (l_tag l)) (C_STRUCT_PTRS_SIZE (l_tag l));
      Ok (IObj o)
  | ITText additional_size =>
      do (offset, p) <- c_l_resolve l (c_offset_for_item l i);
      do b <- c_read_str (l_seg l) p offset None additional_size;
      Ok (IBytes b)
  | ITList inner =>
      do (offset, p) <- c_l_resolve l (c_add (l_off l) (c_mul i 8));
      do l' <- c_list_init (l_seg l) (C_DEREF p offset) (C_LIST_SIZE_TAG p)
                 (C_LIST_ITEM_COUNT p) inner;
      Ok (IList l')
  end.

(** list.py:64-68 *)
Definition c_l_getitem (l : lobj) (i : Z) : res item :=
  let i := if i <? 0 then i + l_count l else i in
  if (0 <=? i) && (i <? l_count l) then c_read_item l i else Err IndexError.

(** ** segment/endof.py + endof.pxd

    [endof] is declared [except -2]; the other functions are [cdef long]
    without an except clause. *)
Section with_rec.
  Variable rec : seg -> Z -> Z -> res Z.

  (** endof.py:45-58, before [swallow]; the position [offset + i*8] is
      computed incrementally *)
  Fixpoint c_endof_ptrs_ (n : nat) (s : seg) (p_offset current_end : Z) : res Z :=
    match n with
    | O => Ok current_end
    | S n' =>
        do p <- c_read_ptr s p_offset;
        if p =? 0 then c_endof_ptrs_ n' s (c_add p_offset 8) current_end
        else if negb (C_DEREF p p_offset =? current_end) then Ok (-1)
        else
          do current_end <- rec s p p_offset;
          c_endof_ptrs_ n' s (c_add p_offset 8) current_end
    end.
  Definition c_endof_ptrs (n : nat) (s : seg) (p_offset current_end : Z) : res Z :=
    swallow (c_endof_ptrs_ n s p_offset current_end).

  (** endof.py:60-63 *)
  Definition c_endof_struct (s : seg) (ofs data_size ptrs_size : Z) : res Z :=
    let ofs := c_add ofs (c_mul data_size 8) in
    let current_end := c_add ofs (c_mul ptrs_size 8) in
    swallow (c_endof_ptrs (Z.to_nat ptrs_size) s ofs current_end).

  (** endof.py:73-78 *)
  Fixpoint c_endof_items (n : nat) (s : seg) (item_offset item_size ptrs_size end_ : Z)
    : res Z :=
    match n with
    | O => Ok end_
    | S n' =>
        do end_ <- c_endof_ptrs (Z.to_nat ptrs_size) s item_offset end_;
        if end_ =? -1 then Ok (-1)
        else c_endof_items n' s (c_add item_offset item_size) item_size ptrs_size end_
    end.

  (** endof.py:65-80 *)
  Definition c_endof_list_composite (s : seg) (ofs count data_size ptrs_size : Z) : res Z :=
    let item_size := c_mul (c_add data_size ptrs_size) 8 in
    let ofs := c_add ofs 8 in
    let end_ := c_add ofs (c_mul item_size count) in
    swallow (if ptrs_size =? 0 then Ok end_
             else c_endof_items (Z.to_nat count) s (c_add ofs (c_mul data_size 8)) item_size
                                ptrs_size end_).

  (** endof.py:82-84 *)
  Definition c_endof_list_ptr (s : seg) (ofs count : Z) : res Z :=
    swallow (c_endof_ptrs (Z.to_nat count) s ofs (c_add ofs (c_mul 8 count))).

  (** endof.py:86-88 *)
  Definition c_endof_list_primitive (ofs item_size count : Z) : Z :=
    let item_size := pyx_list_item_length item_size in
    C_ROUND_UP_TO_WORD (c_add ofs (c_mul item_size count)).

  (** endof.py:90-92 *)
  Definition c_endof_list_bit (ofs count : Z) : Z :=
    let bytes_length := C_ROUND_UP_TO_WORD count / 8 in
    C_ROUND_UP_TO_WORD (c_add ofs bytes_length).
End with_rec.

(** endof.py:3-43 *)
Fixpoint c_endof (fuel : nat) (s : seg) (p ofs : Z) : res Z :=
  match fuel with
  | O => Err OutOfFuel
  | S fuel' =>
      let rec := c_endof fuel' in
      let k := C_KIND p in
      let ofs := C_DEREF p ofs in
      except_ (-2)
       (if k =? STRUCT then
          c_endof_struct rec s ofs (C_STRUCT_DATA_SIZE p) (C_STRUCT_PTRS_SIZE p)
        else if k =? LIST then
          let item_size := C_LIST_SIZE_TAG p in
          let count := C_LIST_ITEM_COUNT p in
          if item_size =? LIST_SIZE_COMPOSITE then
            do tag <- c_read_ptr s ofs;
            c_endof_list_composite rec s ofs (C_OFFSET tag) (C_STRUCT_DATA_SIZE tag)
                                   (C_STRUCT_PTRS_SIZE tag)
          else if item_size =? LIST_SIZE_PTR then c_endof_list_ptr rec s ofs count
          else if item_size =? LIST_SIZE_BIT then Ok (c_endof_list_bit ofs count)
          else Ok (c_endof_list_primitive ofs item_size count)
        else if k =? FAR then Ok (-1)
        else Err AssertionError)
  end.

(** struct_.py:284-286, struct_.pxd:59 ([cpdef long _get_end]) *)
Definition c_o_get_end (fuel : nat) (o : obj) : res Z :=
  swallow (c_endof fuel (o_seg o) (C_NEW_STRUCT 0 (o_ds o) (o_ps o)) (c_add (o_off o) (-8))).

(** struct_.py:288-289, struct_.pxd:60 *)
Definition c_o_is_compact (fuel : nat) (o : obj) : res bool :=
  do e <- c_o_get_end fuel o;
  Ok (negb (e =? -1)).

(** base.pyx:133-150 (dump_message): the number of words is stored as an
    int32, the pointer as a long *)
Definition c_dump_message (s : seg) (p start end_ : Z) : res bytes :=
  let maxlen := blen (sbuf s) in
  if (start <? 0) || (end_ <? start) || (maxlen <? end_)
  then Err ValueError
  else
    let length := end_ - start in
    Ok (fenc Fi 0 ++ fenc Fi (length / 8 + 1) ++ fenc Fq p ++ sub (sbuf s) start length).
