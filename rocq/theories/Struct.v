(** Model of capnpy/struct_.py (struct objects), capnpy/blob.py and of the
    struct part of capnpy/segment/builder.py. *)
From Verif Require Import Base Spec Ptr Segment Builder Copy Endof.

(** The instance attributes of a Struct (struct_.py:53-60). [_ptrs_offset] is
    kept separately, as in the code. The class of the object is not modelled:
    the generated getters only pass constants to the methods below. *)
Record obj := mkobj {
  o_seg : seg; o_off : Z; o_ptrs : Z; o_ds : Z; o_ps : Z
}.

(** struct_.py:53-60 (_init_from_buffer); blob.py:41-45 (_init_blob) only
    wraps bytes into a Segment *)
Definition init_from_buffer (s : seg) (offset data_size ptrs_size : Z) : res obj :=
  let o := {| o_seg := s; o_off := offset; o_ptrs := offset + data_size * 8;
              o_ds := data_size; o_ps := ptrs_size |} in
  do _ <- py_assert (o_off o + data_size * 8 <=? blen (sbuf s));
  do _ <- py_assert (o_ptrs o + ptrs_size * 8 <=? blen (sbuf s));
  Ok o.

(** struct_.py:62-67 (_init_from_pointer) *)
Definition init_from_pointer (s : seg) (offset p : Z) : res obj :=
  do _ <- py_assert (kind p =? STRUCT);
  init_from_buffer s (deref p offset) (struct_data_size p) (struct_ptrs_size p).

(** struct_.py:172-178 (_as_pointer) *)
Definition as_pointer (o : obj) (offset : Z) : Z :=
  new_struct ((o_off o - offset - 8) / 8) (o_ds o) (o_ps o).

(** struct_.py:180-184 (_read_fast_ptr) *)
Definition o_read_fast_ptr (o : obj) (offset : Z) : res Z :=
  if o_ps o * 8 <=? offset then Ok 0 else read_ptr (o_seg o) (o_ptrs o + offset).

(** struct_.py:186-189 (_read_far_ptr) *)
Definition o_read_far_ptr (o : obj) (offset : Z) : res (Z * Z) :=
  if o_ps o * 8 <=? offset then Ok (offset, 0) else read_far_ptr (o_seg o) (o_ptrs o + offset).

(** struct_.py:191-195 and 197-201 (_read_primitive, _read_int16) *)
Definition o_read_primitive (o : obj) (offset : Z) (f : ifmt) : res Z :=
  if o_ds o * 8 <=? offset then Ok 0 else read_primitive (o_seg o) (o_off o + offset) f.

(** struct_.py:203-205 (_read_bit) *)
Definition o_read_bit (o : obj) (offset bitmask : Z) : res bool :=
  do val <- o_read_primitive o offset FB;
  Ok (negb (Z.land val bitmask =? 0)).

(** The common beginning of _read_struct, _read_list, _read_data, _hash_data
    (struct_.py:212-217, 229-234, 262-266, 270-274): the position and the
    value of the (non-far) pointer *)
Definition o_resolve (o : obj) (offset : Z) : res (Z * Z) :=
  do p <- o_read_fast_ptr o offset;
  if kind p =? FAR then o_read_far_ptr o offset
  else Ok (offset + o_ptrs o, p).

(** struct_.py:207-222 (_read_struct); [None] is Python's None *)
Definition o_read_struct (o : obj) (offset : Z) : res (option obj) :=
  do (offset, p) <- o_resolve o offset;
  if p =? 0 then Ok None
  else
    do _ <- py_assert (kind p =? STRUCT);
    do o' <- init_from_pointer (o_seg o) offset p;
    Ok (Some o').

(** struct_.py:261-267 (_read_data); text getters are this with additional_size = -1
    (struct_.py:244-249, 251-259) *)
Definition o_read_data (o : obj) (offset : Z) (default_ : option bytes) (additional_size : Z)
  : res (option bytes) :=
  do (offset, p) <- o_resolve o offset;
  read_str (o_seg o) p offset default_ additional_size.

(** struct_.py:167-170 (__which__), on a class with a union *)
Definition o_which (o : obj) (tag_offset : Z) : res Z := o_read_primitive o tag_offset Fh.

(** struct_.py:277-281 (_ensure_union) *)
Definition o_ensure_union (o : obj) (tag_offset expected_tag : Z) : res unit :=
  do w <- o_which o tag_offset;
  if w =? expected_tag then Ok tt else Err ValueError.

(** struct_.py:284-286 (_get_end) *)
Definition o_get_end (fuel : nat) (o : obj) : res Z :=
  endof fuel (o_seg o) (new_struct 0 (o_ds o) (o_ps o)) (o_off o - 8).

(** struct_.py:288-289 (_is_compact) *)
Definition o_is_compact (fuel : nat) (o : obj) : res bool :=
  do e <- o_get_end fuel o;
  Ok (negb (e =? -1)).

(** builder.py:108-115 (copy_from_struct), value of the right class or None *)
Definition copy_from_struct (fuel : nat) (dst : bytes) (dst_pos : Z) (value : option obj)
  : res bytes :=
  match value with
  | None => write_int64 dst dst_pos 0
  | Some o => copy_pointer fuel (o_seg o) (as_pointer o 0) 0 dst dst_pos
  end.

(** struct_.py:291-304 (compact) *)
Definition o_compact (fuel : nat) (o : obj) : res obj :=
  let (builder, pos) := allocate [] 8 in
  do buf <- copy_from_struct fuel builder pos (Some o);
  init_from_buffer {| sbuf := buf; soffs := None |} 8 (o_ds o) (o_ps o).

(** message.py:132-171 (dumps) *)
Definition dumps (fuel : nat) (o : obj) (fastpath : bool) : res bytes :=
  do end_ <- (if fastpath then o_get_end fuel o else Ok (-1));
  if negb (end_ =? -1) then
    let start := o_off o in
    let p := new_struct 0 (o_ds o) (o_ps o) in
    dump_message (o_seg o) p start end_
  else
    let (builder, _) := allocate [] 16 in
    do buf <- copy_from_struct fuel builder 8 (Some o);
    let segment_size := (blen buf - 8) / 8 in
    do buf <- b_write FI buf 0 (1 - 1);
    do buf <- b_write FI buf 4 segment_size;
    Ok buf.

(** struct_.py:69-73 (__reduce__) and 26-33 (struct_from_buffer): what
    pickle stores and what it calls back *)
Definition o_reduce (o : obj) : seg * Z * Z * Z := (o_seg o, o_off o, o_ds o, o_ps o).
Definition o_unreduce (a : seg * Z * Z * Z) : res obj :=
  let '(s, off, ds, ps) := a in init_from_buffer s off ds ps.

(** struct_.py:91-113 (_raw_dumps) and 115-133 (_raw_loads): the marshalled
    tuple (the class name and the header are omitted) *)
Definition o_raw_dumps (o : obj) : bytes * option (list Z) * Z * Z * Z :=
  (sbuf (o_seg o), soffs (o_seg o), o_off o, o_ds o, o_ps o).
Definition o_raw_loads (a : bytes * option (list Z) * Z * Z * Z) : res obj :=
  let '(buf, offs, off, ds, ps) := a in
  let s := match offs with
           | None => {| sbuf := buf; soffs := None |}
           | Some t => {| sbuf := buf; soffs := Some t |}
           end in
  init_from_buffer s off ds ps.
