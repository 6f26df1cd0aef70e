(** Model of capnpy/segment/builder.py (pure-Python SegmentBuilder). The state
    is the bytearray [self.buf]; mutating methods return the new state. *)
From Verif Require Import Base Spec Ptr.

(** builder.py:22-53 (write_generic, write_int8 ... write_uint64):
    struct.pack_into(fmt, self.buf, i, value) *)
Definition b_write (f : ifmt) (buf : bytes) (i v : Z) : res bytes := pack_into f buf i v.

(** builder.py:43-44 *)
Definition write_int64 (buf : bytes) (i v : Z) : res bytes := b_write Fq buf i v.

(** builder.py:55-58 *)
Definition write_bool (buf : bytes) (byteoffset bitoffset value : Z) : res bytes :=
  do current <- unpack_from FB buf byteoffset;
  pack_into FB buf byteoffset (Z.lor current (Z.shiftl value bitoffset)).

(** builder.py:60-61 *)
Definition write_slice (buf : bytes) (i : Z) (src : bytes) (start n : Z) : bytes :=
  py_slice_set buf i (i + n) (py_slice src start (start + n)).

(** builder.py:63-67; returns (new state, start position) *)
Definition allocate (buf : bytes) (length : Z) : bytes * Z :=
  (buf ++ zeros length, blen buf).

(** builder.py:69-79 *)
Definition alloc_struct (buf : bytes) (pos data_size ptrs_size : Z) : res (bytes * Z) :=
  let length := (data_size + ptrs_size) * 8 in
  let (buf, result) := allocate buf length in
  let offet := result - (pos + 8) in
  let p := new_struct (offet / 8) data_size ptrs_size in
  do buf <- write_int64 buf pos p;
  Ok (buf, result).

(** builder.py:81-91 *)
Definition alloc_list (buf : bytes) (pos size_tag item_count body_length : Z)
  : res (bytes * Z) :=
  let body_length := round_up_to_word body_length in
  let (buf, result) := allocate buf body_length in
  let offet := result - (pos + 8) in
  let p := new_list (offet / 8) size_tag item_count in
  do buf <- write_int64 buf pos p;
  Ok (buf, result).

(** builder.py:93-103; [None] is Python's None *)
Definition alloc_text_tz (buf : bytes) (pos : Z) (s : option bytes) (trailing_zero : Z)
  : res (bytes * Z) :=
  match s with
  | None =>
      do buf <- write_int64 buf pos 0;
      Ok (buf, -1)
  | Some s =>
      let n := blen s in
      let nn := n + trailing_zero in
      do (buf, result) <- alloc_list buf pos LIST_SIZE_8 nn nn;
      Ok (py_slice_set buf result (result + n) s, result)
  end.

Definition alloc_text (buf : bytes) (pos : Z) (s : option bytes) := alloc_text_tz buf pos s 1.

(** builder.py:105-106 *)
Definition alloc_data (buf : bytes) (pos : Z) (s : option bytes) := alloc_text_tz buf pos s 0.
