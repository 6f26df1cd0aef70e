(** Model of capnpy/segment/base.py, capnpy/segment/segment.py, capnpy/packing.py
    (the reading side). A [seg] is a Segment when [soffs] is [None] and a
    MultiSegment otherwise. Float formats are not modelled: a float field is
    the opaque 4- or 8-byte pattern read with the unsigned integer format of
    the same size. *)
From Verif Require Import Base Spec Ptr.

(** segment/base.py:38-42 (BaseSegment.read_primitive); read_int64 etc.
    (base.py:44-69) are this function at a fixed format. *)
Definition read_primitive (s : seg) (offset : Z) (f : ifmt) : res Z :=
  if (offset <? 0) || (blen (sbuf s) <? offset + fsize f)
  then Err IndexError
  else unpack_from f (sbuf s) offset.

(** packing.py:23-27 *)
Definition unpack_primitive (f : ifmt) (buf : bytes) (offset : Z) : res Z :=
  if (offset <? 0) || (blen buf <? offset + fsize f)
  then Err IndexError
  else unpack_from f buf offset.

(** segment/base.py:26-29 and packing.py:35-36 *)
Definition unpack_uint32 (buf : bytes) (offset : Z) : res Z :=
  if (offset <? 0) || (blen buf <? offset + 4)
  then Err IndexError
  else unpack_from FI buf offset.

(** packing.py:48-53: struct.error becomes IndexError *)
Definition packing_pack_into (f : ifmt) (buf : bytes) (offset v : Z) : res bytes :=
  match pack_into f buf offset v with
  | Err StructError => Err IndexError
  | r => r
  end.

(** segment/segment.py:17-31 (Segment.read_ptr) *)
Definition read_ptr (s : seg) (offset : Z) : res Z := read_primitive s offset Fq.

(** Indexing of the [segment_offsets] tuple (segment.py:87, 110). The index
    is a far_target, hence never negative. *)
Definition offsets_get (t : list Z) (k : Z) : res Z :=
  match nth_error t (Z.to_nat k) with
  | Some x => Ok x
  | None => Err IndexError
  end.

(** segment/segment.py:33-34 (Segment.read_far_ptr) and 82-117
    (MultiSegment.read_far_ptr); returns (offset, ptr) *)
Definition read_far_ptr (s : seg) (ofs : Z) : res (Z * Z) :=
  match soffs s with
  | None => Err ValueError
  | Some t =>
      do p <- read_ptr s ofs;
      do segment_start <- offsets_get t (far_target p);
      let ofs := segment_start + far_offset p * 8 in
      if far_landing_pad p =? 0 then
        do p <- read_ptr s ofs;
        Ok (ofs, p)
      else
        do p <- read_ptr s ofs;
        do ptag <- read_ptr s (ofs + 8);
        do _ <- py_assert (kind p =? FAR);
        do _ <- py_assert (far_landing_pad p =? 0);
        do _ <- py_assert (offset ptag =? 0);
        do segment_start <- offsets_get t (far_target p);
        let ofs := segment_start + far_offset p * 8 in
        Ok (ofs - 8, ptag)
  end.

(** segment/segment.py:36-50 (Segment.read_str); [None] is Python's None *)
Definition read_str (s : seg) (p ofs : Z) (default_ : option bytes) (additional_size : Z)
  : res (option bytes) :=
  if p =? 0 then Ok default_
  else
    do _ <- py_assert (kind p =? LIST);
    do _ <- py_assert (list_size_tag p =? LIST_SIZE_8);
    let start := deref p ofs in
    let end_ := start + list_item_count p + additional_size in
    Ok (Some (py_slice (sbuf s) start end_)).

(** segment/base.py:77-85 (BaseSegment.dump_message); struct.pack(b'IIq', ...)
    in native mode is 4+4+8 bytes on the supported platforms *)
Definition dump_message (s : seg) (p start end_ : Z) : res bytes :=
  let maxlen := blen (sbuf s) in
  if (start <? 0) || (end_ <? start) || (maxlen <? end_)
  then Err ValueError
  else
    let length := end_ - start in
    if negb (in_fmtb FI (length / 8 + 1) && in_fmtb Fq p) then Err StructError
    else
      Ok (fenc FI 0 ++ fenc FI (length / 8 + 1) ++ fenc Fq p
          ++ py_slice (sbuf s) start end_).
