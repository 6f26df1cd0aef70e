(** Model of capnpy/segment/builder.pyx, the SegmentBuilder of the compiled
    (PYX) library, and of _copy_pointer.py as compiled into it. C memory
    accesses are unchecked there: an access outside of the allocated memory is
    [MemFault] here. C longs are not bounded (see C05 for the arithmetic on
    pointer words). *)
From Verif Require Import Base Spec Ptr Segment Builder Copy.
From Verif Require CRead.

(** [cb_mem]: the whole bytearray, of length self.length; [cb_end]: self.end *)
Record cb := mkcb { cb_mem : bytes; cb_end : Z }.

(** a C store of some bytes at cbuf+i *)
Definition c_store (st : cb) (i : Z) (b : bytes) : res cb :=
  if (0 <=? i) && (i + blen b <=? blen (cb_mem st))
  then Ok {| cb_mem := upd (cb_mem st) i b; cb_end := cb_end st |}
  else Err MemFault.

(** builder.pyx:57-120 (write_generic, write_int8 ... write_uint64); the
    conversion of the Python integer to the C type raises OverflowError *)
Definition c_write (f : ifmt) (st : cb) (i v : Z) : res cb :=
  if in_fmtb f v then c_store st i (fenc f v) else Err OverflowError.

(** write_int64 called from C with a long *)
Definition c_write_long (st : cb) (i p : Z) : res cb := c_store st i (fenc Fq p).

(** builder.pyx:111-114 (write_bool); bint: 0 or 1 *)
Definition c_write_bool (st : cb) (byteoffset bitoffset : Z) (value : bool) : res cb :=
  if (0 <=? byteoffset) && (byteoffset + 1 <=? blen (cb_mem st)) then
    let current := fdec FB (sub (cb_mem st) byteoffset 1) in
    c_store st byteoffset (fenc FB (Z.lor current (Z.shiftl (Z.b2z value) bitoffset) mod 256))
  else Err MemFault.

(** builder.pyx:116-120 (write_slice): memcpy from the buffer of a segment *)
Definition c_write_slice (st : cb) (i : Z) (src : bytes) (start n : Z) : res cb :=
  if (0 <=? n) && (0 <=? start) && (start + n <=? blen src)
  then c_store st i (sub src start n) else Err MemFault.

Section builder.
  (** the bytes PyByteArray_Resize leaves in the new part of the memory *)
  Variable junk : nat -> byte.

  (** builder.pyx:26-30 (__cinit__) *)
  Definition c_init (length : Z) : cb := {| cb_mem := zeros length; cb_end := 0 |}.

  (** PyByteArray_Resize to a larger length *)
  Definition c_realloc (mem : bytes) (newlen : Z) : bytes :=
    mem ++ map junk (seq (length mem) (Z.to_nat newlen - length mem)).

  (** builder.pyx:32-49 (_resize) *)
  Definition c_resize (st : cb) (minlen : Z) : cb :=
    let curlen := blen (cb_mem st) in
    let newlen := curlen + Z.shiftr curlen 1 + 512 in
    let newlen := Z.max minlen newlen in
    let newlen := Z.land (newlen + (8 - 1)) (-8) in
    let mem := c_realloc (cb_mem st) newlen in
    {| cb_mem := upd mem curlen (zeros (newlen - curlen)); cb_end := cb_end st |}.

  (** builder.pyx:54-55 (as_string) *)
  Definition c_as_string (st : cb) : bytes := sub (cb_mem st) 0 (cb_end st).

  (** builder.pyx:122-131 *)
  Definition c_allocate (st : cb) (length : Z) : cb * Z :=
    let result := cb_end st in
    let st := {| cb_mem := cb_mem st; cb_end := cb_end st + length |} in
    let st := if blen (cb_mem st) <? cb_end st then c_resize st (cb_end st) else st in
    (st, result).

  (** builder.pyx:133-143 *)
  Definition c_alloc_struct (st : cb) (pos data_size ptrs_size : Z) : res (cb * Z) :=
    let length := (data_size + ptrs_size) * 8 in
    let (st, result) := c_allocate st length in
    let offet := result - (pos + 8) in
    let p := C_NEW_STRUCT (offet / 8) data_size ptrs_size in
    do st <- c_write_long st pos p;
    Ok (st, result).

  (** builder.pyx:145-156 *)
  Definition c_alloc_list (st : cb) (pos size_tag item_count body_length : Z) : res (cb * Z) :=
    let body_length := Z.land (body_length + (8 - 1)) (-8) in
    let (st, result) := c_allocate st body_length in
    let offet := result - (pos + 8) in
    let p := C_NEW_LIST (offet / 8) size_tag item_count in
    do st <- c_write_long st pos p;
    Ok (st, result).

  (** builder.pyx:158-172 (alloc_text; alloc_data is trailing_zero=0) *)
  Definition c_alloc_text_tz (st : cb) (pos : Z) (s : option bytes) (trailing_zero : Z)
    : res (cb * Z) :=
    match s with
    | None =>
        do st <- c_write_long st pos 0;
        Ok (st, -1)
    | Some s =>
        let n := blen s in
        let nn := n + trailing_zero in
        do (st, result) <- c_alloc_list st pos LIST_SIZE_8 nn nn;
        do st <- c_store st result s;
        Ok (st, result)
    end.
End builder.

(** ** _copy_pointer.py, for any builder

    The text of Copy.v again, with the operations of the builder and the
    reads of the source as parameters. *)
Section copy.
  Variable St : Type.
  Variable w64 : St -> Z -> Z -> res St.
  Variable wslice : St -> Z -> bytes -> Z -> Z -> res St.
  Variable astruct : St -> Z -> Z -> Z -> res (St * Z).
  Variable alist : St -> Z -> Z -> Z -> Z -> res (St * Z).
  Variable rd64 : seg -> Z -> res Z.
  Variable rfar : seg -> Z -> res (Z * Z).

  Section with_rec.
    Variable rec : seg -> Z -> Z -> St -> Z -> res St.

    (** _copy_pointer.py:96-100 *)
    Fixpoint g_ptrs_loop (n : nat) (src : seg) (src_pos : Z) (dst : St) (dst_pos : Z) : res St :=
      match n with
      | O => Ok dst
      | S n' =>
          do p <- rd64 src src_pos;
          do dst <- (if p =? 0 then Ok dst else rec src p src_pos dst dst_pos);
          g_ptrs_loop n' src (src_pos + 8) dst (dst_pos + 8)
      end.

    (** _copy_pointer.py:94-100 *)
    Definition g_many_ptrs (n : Z) (src : seg) (src_pos : Z) (dst : St) (dst_pos : Z) : res St :=
      do _ <- check_bounds src (n * 8) src_pos;
      g_ptrs_loop (Z.to_nat n) src src_pos dst dst_pos.

    (** _copy_pointer.py:108-120 *)
    Definition g_struct (src : seg) (p src_pos : Z) (dst : St) (dst_pos : Z) : res St :=
      let src_pos := deref p src_pos in
      let data_size := struct_data_size p in
      let ptrs_size := struct_ptrs_size p in
      if data_size + ptrs_size =? 0 then
        w64 dst dst_pos (new_struct (-1) 0 0)
      else
        let ds := data_size * 8 in
        do (dst, dst_pos) <- astruct dst dst_pos data_size ptrs_size;
        do _ <- check_bounds src ds src_pos;
        do dst <- wslice dst dst_pos (sbuf src) src_pos ds;
        g_many_ptrs ptrs_size src (src_pos + ds) dst (dst_pos + ds).

    (** _copy_pointer.py:156-168 *)
    Definition g_list_primitive (src : seg) (p src_pos : Z) (dst : St) (dst_pos : Z) : res St :=
      let src_pos := deref p src_pos in
      let count := list_item_count p in
      let size_tag := list_size_tag p in
      let body_length :=
        if size_tag =? LIST_SIZE_BIT
        then (count + 8 - 1) / 8
        else count * list_item_length size_tag in
      do (dst, dst_pos) <- alist dst dst_pos size_tag count body_length;
      do _ <- check_bounds src body_length src_pos;
      wslice dst dst_pos (sbuf src) src_pos body_length.

    (** _copy_pointer.py:176-182 *)
    Definition g_list_ptr (src : seg) (p src_pos : Z) (dst : St) (dst_pos : Z) : res St :=
      let src_pos := deref p src_pos in
      let count := list_item_count p in
      let body_length := count * 8 in
      do (dst, dst_pos) <- alist dst dst_pos LIST_SIZE_PTR count body_length;
      do _ <- check_bounds src body_length src_pos;
      g_many_ptrs count src src_pos dst dst_pos.

    (** _copy_pointer.py:213-218 *)
    Fixpoint g_items_loop (n : nat) (item_length ptrs_size : Z) (src : seg) (src_pos : Z)
             (dst : St) (dst_pos : Z) : res St :=
      match n with
      | O => Ok dst
      | S n' =>
          do dst <- g_many_ptrs ptrs_size src src_pos dst dst_pos;
          g_items_loop n' item_length ptrs_size src (src_pos + item_length)
                       dst (dst_pos + item_length)
      end.

    (** _copy_pointer.py:192-218 *)
    Definition g_list_composite (src : seg) (p src_pos : Z) (dst : St) (dst_pos : Z) : res St :=
      let src_pos := deref p src_pos in
      let total_words := list_item_count p in
      let body_length := (total_words + 1) * 8 in
      do _ <- check_bounds src body_length src_pos;
      do tag <- rd64 src src_pos;
      let count := offset tag in
      let data_size := struct_data_size tag in
      let ptrs_size := struct_ptrs_size tag in
      do (dst, dst_pos) <- alist dst dst_pos LIST_SIZE_COMPOSITE total_words body_length;
      do dst <- wslice dst dst_pos (sbuf src) src_pos body_length;
      let item_length := (data_size + ptrs_size) * 8 in
      g_items_loop (Z.to_nat count) item_length ptrs_size
        src (src_pos + (8 + data_size * 8)) dst (dst_pos + (8 + data_size * 8)).
  End with_rec.

  (** _copy_pointer.py:68-86 *)
  Fixpoint g_copy (fuel : nat) (src : seg) (p src_pos : Z) (dst : St) (dst_pos : Z) : res St :=
    match fuel with
    | O => Err OutOfFuel
    | S fuel' =>
        let rec := g_copy fuel' in
        let k := kind p in
        if k =? STRUCT then g_struct rec src p src_pos dst dst_pos
        else if k =? LIST then
          let item_size := list_size_tag p in
          if item_size =? LIST_SIZE_COMPOSITE then
            g_list_composite rec src p src_pos dst dst_pos
          else if item_size =? LIST_SIZE_PTR then
            g_list_ptr rec src p src_pos dst dst_pos
          else g_list_primitive src p src_pos dst dst_pos
        else if k =? FAR then
          do (src_pos, p) <- rfar src src_pos;
          rec src p src_pos dst dst_pos
        else Ok dst
    end.
End copy.

(** _copy_pointer.pyx:20-21 (read_int64_fast): no bound check *)
Definition c_read_int64_fast (src : seg) (i : Z) : res Z :=
  if (0 <=? i) && (i + 8 <=? blen (sbuf src)) then Ok (fdec Fq (sub (sbuf src) i 8)) else Err MemFault.

(** copy_pointer on the compiled builder; a new_struct pointer passed to
    write_int64 is a C long already. read_far_ptr is the compiled one: it takes
    words outside of the buffer for null. *)
Definition c_copy_pointer (junk : nat -> byte) : nat -> seg -> Z -> Z -> cb -> Z -> res cb :=
  g_copy cb c_write_long c_write_slice (c_alloc_struct junk) (c_alloc_list junk) c_read_int64_fast CRead.c_read_far_ptr.
