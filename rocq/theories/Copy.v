(** Model of capnpy/segment/_copy_pointer.py (pure-Python mode). The recursion
    of copy_pointer is cut by fuel ([OutOfFuel]); every recursive call of the
    Python code goes through [copy_pointer]. *)
From Verif Require Import Base Spec Ptr Segment Builder.

(** _copy_pointer.py:40-42 (note: a negative offset is not checked) *)
Definition check_bounds (src : seg) (size ofs : Z) : res unit :=
  if blen (sbuf src) <? ofs + size then Err IndexError else Ok tt.

Section with_rec.
  (** the recursive call copy_pointer(src, p, src_pos, dst, dst_pos) *)
  Variable rec : seg -> Z -> Z -> bytes -> Z -> res bytes.

  (** the loop of _copy_many_ptrs (_copy_pointer.py:96-100), [n] iterations
      left, both positions at the current pointer *)
  Fixpoint copy_ptrs_loop (n : nat) (src : seg) (src_pos : Z) (dst : bytes) (dst_pos : Z)
    : res bytes :=
    match n with
    | O => Ok dst
    | S n' =>
        do p <- read_primitive src src_pos Fq;
        do dst <- (if p =? 0 then Ok dst else rec src p src_pos dst dst_pos);
        copy_ptrs_loop n' src (src_pos + 8) dst (dst_pos + 8)
    end.

  (** _copy_pointer.py:94-100 *)
  Definition copy_many_ptrs (n : Z) (src : seg) (src_pos : Z) (dst : bytes) (dst_pos : Z)
    : res bytes :=
    do _ <- check_bounds src (n * 8) src_pos;
    copy_ptrs_loop (Z.to_nat n) src src_pos dst dst_pos.

  (** _copy_pointer.py:128-148 (_copy_struct_inline) *)
  Definition copy_struct_inline (src : seg) (p src_pos : Z) (dst : bytes) (dst_pos : Z)
    : res bytes :=
    let src_pos := deref p src_pos in
    let data_size := struct_data_size p in
    let ptrs_size := struct_ptrs_size p in
    let ds := data_size * 8 in
    do _ <- check_bounds src ds src_pos;
    let dst := write_slice dst dst_pos (sbuf src) src_pos ds in
    copy_many_ptrs ptrs_size src (src_pos + ds) dst (dst_pos + ds).

  (** _copy_pointer.py:108-120 *)
  Definition copy_struct (src : seg) (p src_pos : Z) (dst : bytes) (dst_pos : Z) : res bytes :=
    let src_pos := deref p src_pos in
    let data_size := struct_data_size p in
    let ptrs_size := struct_ptrs_size p in
    if data_size + ptrs_size =? 0 then
      write_int64 dst dst_pos (new_struct (-1) 0 0)
    else
      let ds := data_size * 8 in
      do (dst, dst_pos) <- alloc_struct dst dst_pos data_size ptrs_size;
      do _ <- check_bounds src ds src_pos;
      let dst := write_slice dst dst_pos (sbuf src) src_pos ds in
      copy_many_ptrs ptrs_size src (src_pos + ds) dst (dst_pos + ds).

  (** _copy_pointer.py:156-168 *)
  Definition copy_list_primitive (src : seg) (p src_pos : Z) (dst : bytes) (dst_pos : Z)
    : res bytes :=
    let src_pos := deref p src_pos in
    let count := list_item_count p in
    let size_tag := list_size_tag p in
    let body_length :=
      if size_tag =? LIST_SIZE_BIT
      then (count + 8 - 1) / 8
      else count * list_item_length size_tag in
    do (dst, dst_pos) <- alloc_list dst dst_pos size_tag count body_length;
    do _ <- check_bounds src body_length src_pos;
    Ok (write_slice dst dst_pos (sbuf src) src_pos body_length).

  (** _copy_pointer.py:176-182 *)
  Definition copy_list_ptr (src : seg) (p src_pos : Z) (dst : bytes) (dst_pos : Z)
    : res bytes :=
    let src_pos := deref p src_pos in
    let count := list_item_count p in
    let body_length := count * 8 in
    do (dst, dst_pos) <- alloc_list dst dst_pos LIST_SIZE_PTR count body_length;
    do _ <- check_bounds src body_length src_pos;
    copy_many_ptrs count src src_pos dst dst_pos.

  (** the loop of _copy_list_composite (_copy_pointer.py:213-218), [n]
      iterations left, both positions at the pointer section of the current
      item *)
  Fixpoint copy_items_loop (n : nat) (item_length ptrs_size : Z) (src : seg) (src_pos : Z)
           (dst : bytes) (dst_pos : Z) : res bytes :=
    match n with
    | O => Ok dst
    | S n' =>
        do dst <- copy_many_ptrs ptrs_size src src_pos dst dst_pos;
        copy_items_loop n' item_length ptrs_size src (src_pos + item_length)
                        dst (dst_pos + item_length)
    end.

  (** _copy_pointer.py:192-218 *)
  Definition copy_list_composite (src : seg) (p src_pos : Z) (dst : bytes) (dst_pos : Z)
    : res bytes :=
    let src_pos := deref p src_pos in
    let total_words := list_item_count p in
    let body_length := (total_words + 1) * 8 in
    do _ <- check_bounds src body_length src_pos;
    do tag <- read_primitive src src_pos Fq;
    let count := offset tag in
    let data_size := struct_data_size tag in
    let ptrs_size := struct_ptrs_size tag in
    do (dst, dst_pos) <- alloc_list dst dst_pos LIST_SIZE_COMPOSITE total_words body_length;
    let dst := write_slice dst dst_pos (sbuf src) src_pos body_length in
    let item_length := (data_size + ptrs_size) * 8 in
    copy_items_loop (Z.to_nat count) item_length ptrs_size
      src (src_pos + (8 + data_size * 8)) dst (dst_pos + (8 + data_size * 8)).
End with_rec.

(** _copy_pointer.py:68-86; a pointer of kind 3 (capability) falls through
    all the branches: nothing is copied. *)
Fixpoint copy_pointer (fuel : nat) (src : seg) (p src_pos : Z) (dst : bytes) (dst_pos : Z)
  : res bytes :=
  match fuel with
  | O => Err OutOfFuel
  | S fuel' =>
      let rec := copy_pointer fuel' in
      let k := kind p in
      if k =? STRUCT then copy_struct rec src p src_pos dst dst_pos
      else if k =? LIST then
        let item_size := list_size_tag p in
        if item_size =? LIST_SIZE_COMPOSITE then
          copy_list_composite rec src p src_pos dst dst_pos
        else if item_size =? LIST_SIZE_PTR then
          copy_list_ptr rec src p src_pos dst dst_pos
        else copy_list_primitive src p src_pos dst dst_pos
      else if k =? FAR then
        do (src_pos, p) <- read_far_ptr src src_pos;
        rec src p src_pos dst dst_pos
      else Ok dst
  end.
