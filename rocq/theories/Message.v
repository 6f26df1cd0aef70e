(** Model of capnpy/message.py (loading). [load] is written once for any
    file-like object: [read n st] returns the bytes and the new state of the
    stream. The state is threaded through exceptions too, because load_all
    and the callers of load go on using the stream. *)
From Verif Require Import Base Spec Ptr Segment Builder Copy Endof Struct.

Section with_reader.
  Variable St : Type.
  Variable read : Z -> St -> bytes * St.

  (** message.py:77-93 (_load_buffer_single_segment) *)
  Definition load_single (st : St) : res seg * St :=
    let (buf, st) := read 4 st in
    if blen buf <? 4 then (Err ValueError, st)
    else
      match unpack_uint32 buf 0 with
      | Err e => (Err e, st)
      | Ok message_size =>
          let message_length := message_size * 8 in
          let (buf, st) := read message_length st in
          if blen buf <? message_length then (Err ValueError, st)
          else (Ok {| sbuf := buf; soffs := None |}, st)
      end.

  (** the loop at message.py:102-106; struct.unpack('<I') of 4 bytes *)
  Fixpoint load_sizes (n : nat) (st : St) : res (list Z) * St :=
    match n with
    | O => (Ok [], st)
    | S n' =>
        let (buf, st) := read 4 st in
        if blen buf <? 4 then (Err ValueError, st)
        else
          match load_sizes n' st with
          | (Ok l, st) => (Ok (fdec FI (sub buf 0 4) :: l), st)
          | (Err e, st) => (Err e, st)
          end
    end.

  (** message.py:122-127: the loop over segments[:-1] *)
  Fixpoint segment_offsets (sizes : list Z) (offset : Z) : list Z :=
    match sizes with
    | [] => []
    | size :: r => (offset + size * 8) :: segment_offsets r (offset + size * 8)
    end.

  (** sum(segments) *)
  Fixpoint sumZ (l : list Z) : Z := match l with [] => 0 | x :: r => x + sumZ r end.

  (** message.py:95-130 *)
  Definition load_multi (n : Z) (st : St) : res seg * St :=
    match load_sizes (Z.to_nat n) st with
    | (Err e, st) => (Err e, st)
    | (Ok segments, st) =>
        let bytes_read := 4 + n * 4 in
        let st := if negb (Z.land bytes_read 7 =? 0)
                  then snd (read (8 - Z.land bytes_read 7) st)
                  else st in
        let message_length := sumZ segments * 8 in
        let (buf, st) := read message_length st in
        if blen buf <? message_length then (Err ValueError, st)
        else (Ok {| sbuf := buf;
                    soffs := Some (0 :: segment_offsets (removelast segments) 0) |}, st)
    end.

  (** message.py:53-74 (_load_message) *)
  Definition load_message (st : St) : res obj * St :=
    let (buf, st) := read 4 st in
    let length := blen buf in
    if length =? 0 then (Err EOFError, st)
    else if length <? 4 then (Err ValueError, st)
    else
      match unpack_uint32 buf 0 with
      | Err e => (Err e, st)
      | Ok n0 =>
          let n := n0 + 1 in
          let (r, st) := if n =? 1 then load_single st else load_multi n st in
          match r with
          | Err e => (Err e, st)
          | Ok capnp_buf => (init_from_buffer capnp_buf 0 0 1, st)
          end
      end.

  (** message.py:12-30 (load); as_filelike is the identity here *)
  Definition load (st : St) : res (option obj) * St :=
    match load_message st with
    | (Err e, st) => (Err e, st)
    | (Ok msg, st) => (o_read_struct msg 0, st)
    end.

  (** message.py:43-51 (load_all): the objects yielded, then the exception
      that ends the generator ([None] when it is exhausted normally); [fuel]
      bounds the number of messages *)
  Fixpoint load_all (fuel : nat) (st : St) : list (option obj) * option exn :=
    match fuel with
    | O => ([], Some OutOfFuel)
    | S fuel' =>
        match load st with
        | (Err EOFError, _) => ([], None)
        | (Err e, _) => ([], Some e)
        | (Ok x, st) => let (l, r) := load_all fuel' st in (x :: l, r)
        end
    end.
End with_reader.

(** buffered.py:126-158 (StringBuffer): state (s, i) *)
Definition sb_state : Type := bytes * Z.

(** buffered.py:137-145, size <> -1 *)
Definition sb_read (size : Z) (st : sb_state) : bytes * sb_state :=
  let (s, i) := st in
  let j := i + size in
  (py_slice s i j, (s, j)).

(** buffered.py:137-140, read() or read(-1) *)
Definition sb_readall (st : sb_state) : bytes * sb_state :=
  let (s, i) := st in (py_from s i, (s, blen s)).

(** message.py:32-41 (loads) *)
Definition loads (buf : bytes) : res (option obj) :=
  match load sb_state sb_read (buf, 0) with
  | (Err e, _) => Err e
  | (Ok obj, (_, i)) => if negb (i =? blen buf) then Err ValueError else Ok obj
  end.
