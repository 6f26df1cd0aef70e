(** Model of capnpy/message.py (loading and dumping) compiled with the
    declarations of message.pxd, buffered.pxd and filelike.pxd: sizes are C
    ints, 32 bits wide. See CRead.v for the conventions. *)
From Verif Require Import Base Spec Ptr Segment Builder Copy Endof Struct List Message BuilderC CRead.

(** assigning a C integer to an int; int arithmetic *)
Definition wrap32 (x : Z) : Z := to_signed 32 (x mod 2 ^ 32).

(** a Python integer assigned to an int *)
Definition to_int (x : Z) : res Z := if in_fmtb Fi x then Ok x else Err OverflowError.

Section with_reader.
  Variable St : Type.
  (** f.read(size) of the FileLike; [int size] (filelike.pxd:4) *)
  Variable read : Z -> St -> bytes * St.

  (** message.py:77-93, message.pxd:20-21: message_size and message_lenght
      are ints; unpack_uint32 returns a uint32_t *)
  Definition c_load_single (st : St) : res seg * St :=
    let (buf, st) := read 4 st in
    if blen buf <? 4 then (Err ValueError, st)
    else
      match unpack_uint32 buf 0 with
      | Err e => (Err e, st)
      | Ok u =>
          let message_size := wrap32 u in
          let message_length := wrap32 (message_size * 8) in
          let (buf, st) := read message_length st in
          if blen buf <? message_length then (Err ValueError, st)
          else (Ok {| sbuf := buf; soffs := None |}, st)
      end.

  (** message.py:122-127: [size] and [offset] are ints *)
  Fixpoint c_segment_offsets (sizes : list Z) (offset : Z) : list Z :=
    match sizes with
    | [] => []
    | size :: r =>
        let offset := wrap32 (offset + wrap32 (size * 8)) in
        offset :: c_segment_offsets r offset
    end.

  (** message.py:95-130, message.pxd:23-25; the sizes are Python integers,
      and their sum is converted to an int; each size of [segments[:-1]] is
      converted too, but is not larger than the sum *)
  Definition c_load_multi (n : Z) (st : St) : res seg * St :=
    match load_sizes St read (Z.to_nat n) st with
    | (Err e, st) => (Err e, st)
    | (Ok segments, st) =>
        let bytes_read := wrap32 (4 + wrap32 (n * 4)) in
        let st := if negb (Z.land bytes_read 7 =? 0)
                  then snd (read (8 - Z.land bytes_read 7) st)
                  else st in
        match to_int (sumZ segments * 8) with
        | Err e => (Err e, st)
        | Ok message_length =>
            let (buf, st) := read message_length st in
            if blen buf <? message_length then (Err ValueError, st)
            else (Ok {| sbuf := buf;
                        soffs := Some (0 :: c_segment_offsets (removelast segments) 0) |}, st)
        end
    end.

  (** message.py:53-74, message.pxd:17-18: [n] is an int; the addition is
      made on a uint32_t *)
  Definition c_load_message (st : St) : res obj * St :=
    let (buf, st) := read 4 st in
    let length := blen buf in
    if length =? 0 then (Err EOFError, st)
    else if length <? 4 then (Err ValueError, st)
    else
      match unpack_uint32 buf 0 with
      | Err e => (Err e, st)
      | Ok n0 =>
          let n := wrap32 (n0 + 1) in
          let (r, st) := if n =? 1 then c_load_single st else c_load_multi n st in
          match r with
          | Err e => (Err e, st)
          | Ok capnp_buf => (c_init_from_buffer capnp_buf 0 0 1, st)
          end
      end.

  (** message.py:12-30 *)
  Definition c_load (st : St) : res (option obj) * St :=
    match c_load_message st with
    | (Err e, st) => (Err e, st)
    | (Ok msg, st) => (c_o_read_struct msg 0, st)
    end.
End with_reader.

(** buffered.py:137-145, buffered.pxd:30-37: [i], [j], [size] and self.i are
    ints *)
Definition c_sb_read (size : Z) (st : sb_state) : bytes * sb_state :=
  let (s, i) := st in
  if size =? -1 then (py_from s i, (s, wrap32 (blen s)))
  else
    let j := wrap32 (i + size) in
    (py_slice s i j, (s, j)).

(** message.py:32-41 *)
Definition c_loads (buf : bytes) : res (option obj) :=
  match c_load sb_state c_sb_read (buf, 0) with
  | (Err e, _) => Err e
  | (Ok obj, (_, i)) => if negb (i =? blen buf) then Err ValueError else Ok obj
  end.

(** read(size) of the file objects of Python (io.RawIOBase and its
    subclasses): the state is what is left; a negative size reads
    everything *)
Definition file_read (size : Z) (st : bytes) : bytes * bytes :=
  if size <? 0 then (st, []) else (firstn (Z.to_nat size) st, skipn (Z.to_nat size) st).

(** message.py:132-171 (dumps), message.pxd:27-29; see BuilderC.v for
    [junk] *)
Definition c_dumps (junk : nat -> byte) (fuel : nat) (o : obj) (fastpath : bool) : res bytes :=
  do end_ <- (if fastpath then c_o_get_end fuel o else Ok (-1));
  if negb (end_ =? -1) then
    let start := o_off o in
    let p := C_NEW_STRUCT 0 (o_ds o) (o_ps o) in
    c_dump_message (o_seg o) p start end_
  else
    let (st, _) := c_allocate junk (c_init 512) 16 in
    do st <- c_copy_pointer junk fuel (o_seg o) (c_as_pointer o 0) 0 st 8;
    let segment_size := (cb_end st - 8) / 8 in
    do st <- c_write FI st 0 (1 - 1);
    do st <- c_write FI st 4 segment_size;
    Ok (c_as_string st).
