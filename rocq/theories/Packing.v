(** Model of capnpy/packing.pyx (the compiled packing functions) and of the
    part of capnpy/packing.py which is not in Segment.v.

    Buffers are [bytes] or [bytearray] objects. Integer formats only, as in
    Base.v. In the compiled functions an [int] parameter is a 32-bit C int: a
    Python integer outside of its range raises OverflowError when the function
    is called; sums of ints wrap around ([c_add32]; CPython extensions are
    built with -fwrapv). As in CRead.v, a read or write of memory outside of
    the buffer is [MemFault], and a function with a C return type and no
    [except] clause swallows exceptions and returns 0. *)
From Verif Require Import Base Spec Ptr Segment CRead.

(** a buffer object: bytes or bytearray *)
Inductive pybuf := Bytes (b : bytes) | Bytearray (b : bytes).
Definition content (x : pybuf) : bytes := match x with Bytes b | Bytearray b => b end.

(** ** packing.py *)

(** packing.py:23-27 *)
Definition py_unpack_primitive (f : ifmt) (buf : pybuf) (offset : Z) : res Z :=
  unpack_primitive f (content buf) offset.

(** packing.py:29-36 *)
Definition py_unpack_int64 (buf : pybuf) (offset : Z) : res Z := py_unpack_primitive Fq buf offset.
Definition py_unpack_int16 (buf : pybuf) (offset : Z) : res Z := py_unpack_primitive Fh buf offset.
Definition py_unpack_uint32 (buf : pybuf) (offset : Z) : res Z := py_unpack_primitive FI buf offset.

(** struct.pack of one integer *)
Definition struct_pack (f : ifmt) (v : Z) : res bytes :=
  if in_fmtb f v then Ok (fenc f v) else Err StructError.

(** packing.py:38-43; the native formats i, i, Q need no padding *)
Definition py_pack_message_header (segment_count segment_size p : Z) : res bytes :=
  do _ <- py_assert (segment_count =? 1);
  do a <- struct_pack Fi (segment_count - 1);
  do b <- struct_pack Fi segment_size;
  do c <- struct_pack FQ p;
  Ok (a ++ b ++ c).

(** packing.py:45-46 *)
Definition py_pack_int64 (value : Z) : res bytes := struct_pack Fq value.

(** packing.py:48-53; struct.pack_into wants a writable buffer *)
Definition py_pack_into (f : ifmt) (buf : pybuf) (offset v : Z) : res pybuf :=
  match buf with
  | Bytes _ => Err TypeError
  | Bytearray b => do b' <- packing_pack_into f b offset v; Ok (Bytearray b')
  end.

(** packing.py:55-56 *)
Definition py_pack_int64_into (buf : pybuf) (offset v : Z) : res pybuf :=
  py_pack_into Fq buf offset v.

(** ** packing.pyx *)

(** arithmetic of C ints *)
Definition c_add32 (x y : Z) : Z := to_signed 32 ((x + y) mod 2 ^ 32).

(** a Python integer passed as a C int *)
Definition to_int (x : Z) : res Z := if in_fmtb Fi x then Ok x else Err OverflowError.

(** packing.pyx:19-36 *)
Definition as_cbuf (buf : pybuf) (rw : bool) : res bytes :=
  match buf with
  | Bytes b => if rw then Err TypeError else Ok b
  | Bytearray b => Ok b
  end.

(** packing.pyx:38-40; the result is an object, so exceptions propagate *)
Definition checkbound (size length offset : Z) : res unit :=
  if (offset <? 0) || (length <? c_add32 offset size) then Err IndexError else Ok tt.

(** the C expression [( *(T* )valueaddr)] *)
Definition c_mem_read (f : ifmt) (b : bytes) (offset : Z) : res Z :=
  if (0 <=? offset) && (offset + fsize f <=? blen b)
  then Ok (fdec f (sub b offset (fsize f)))
  else Err MemFault.

(** the C assignment [( *(T* )valueaddr) = value] *)
Definition c_mem_write (f : ifmt) (b : bytes) (offset v : Z) : res bytes :=
  if (0 <=? offset) && (offset + fsize f <=? blen b)
  then Ok (upd b offset (fenc f v))
  else Err MemFault.

(** a Python integer converted to the C type of the format *)
Definition to_ctype (f : ifmt) (v : Z) : res Z := if in_fmtb f v then Ok v else Err OverflowError.

(** packing.pyx:42-86; the two branches of 'Q' give the same number *)
Definition c_unpack_primitive (f : ifmt) (buf : pybuf) (offset : Z) : res Z :=
  do offset <- to_int offset;
  do b <- as_cbuf buf false;
  do _ <- checkbound (fsize f) (blen b) offset;
  c_mem_read f b offset.

(** packing.pyx:89-114: [cpdef long ...], no except clause. The conversion of
    the argument is made by the Python wrapper, whose exceptions propagate. *)
Definition c_unpack_typed (f : ifmt) (buf : pybuf) (offset : Z) : res Z :=
  do offset <- to_int offset;
  swallow (do b <- as_cbuf buf false;
           do _ <- checkbound (fsize f) (blen b) offset;
           c_mem_read f b offset).
Definition c_unpack_int64 := c_unpack_typed Fq.
Definition c_unpack_int16 := c_unpack_typed Fh.
Definition c_unpack_uint32 := c_unpack_typed FI.

(** packing.pyx:116-125 *)
Definition c_pack_message_header (segment_count segment_size p : Z) : res bytes :=
  do segment_count <- to_int segment_count;
  do segment_size <- to_int segment_size;
  do p <- to_long p;
  do _ <- py_assert (segment_count =? 1);
  Ok (fenc Fi (c_add32 segment_count (-1)) ++ fenc Fi segment_size ++ fenc Fq p).

(** packing.pyx:128-133 *)
Definition c_pack_int64 (value : Z) : res bytes := do value <- to_long value; Ok (fenc Fq value).

(** packing.pyx:136-174 *)
Definition c_pack_into (f : ifmt) (buf : pybuf) (offset v : Z) : res pybuf :=
  do offset <- to_int offset;
  do b <- as_cbuf buf true;
  do _ <- checkbound (fsize f) (blen b) offset;
  do v <- to_ctype f v;
  do b' <- c_mem_write f b offset v;
  Ok (Bytearray b').

(** packing.pyx:176-183 *)
Definition c_pack_int64_into (buf : pybuf) (offset v : Z) : res pybuf :=
  do offset <- to_int offset;
  do v <- to_long v;
  do b <- as_cbuf buf true;
  do _ <- checkbound 8 (blen b) offset;
  do b' <- c_mem_write Fq b offset v;
  Ok (Bytearray b').
