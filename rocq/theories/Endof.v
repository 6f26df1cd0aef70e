(** Model of capnpy/segment/endof.py. Mutual recursion cut by fuel. *)
From Verif Require Import Base Spec Ptr Segment.

Section with_rec.
  (** the recursive call endof(seg, p, offset) *)
  Variable rec : seg -> Z -> Z -> res Z.

  (** endof.py:45-58, [n] pointers left *)
  Fixpoint endof_ptrs (n : nat) (s : seg) (p_offset current_end : Z) : res Z :=
    match n with
    | O => Ok current_end
    | S n' =>
        do p <- read_ptr s p_offset;
        if p =? 0 then endof_ptrs n' s (p_offset + 8) current_end
        else if negb (deref p p_offset =? current_end) then Ok (-1)
        else
          do current_end <- rec s p p_offset;
          endof_ptrs n' s (p_offset + 8) current_end
    end.

  (** endof.py:60-63 *)
  Definition endof_struct (s : seg) (ofs data_size ptrs_size : Z) : res Z :=
    let ofs := ofs + data_size * 8 in
    let current_end := ofs + ptrs_size * 8 in
    endof_ptrs (Z.to_nat ptrs_size) s ofs current_end.

  (** the loop of endof.py:73-78; [item_offset] is the pointer section of the
      current item *)
  Fixpoint endof_items (n : nat) (s : seg) (item_offset item_size ptrs_size end_ : Z)
    : res Z :=
    match n with
    | O => Ok end_
    | S n' =>
        do end_ <- endof_ptrs (Z.to_nat ptrs_size) s item_offset end_;
        if end_ =? -1 then Ok (-1)
        else endof_items n' s (item_offset + item_size) item_size ptrs_size end_
    end.

  (** endof.py:65-80 *)
  Definition endof_list_composite (s : seg) (ofs count data_size ptrs_size : Z) : res Z :=
    let item_size := (data_size + ptrs_size) * 8 in
    let ofs := ofs + 8 in
    let end_ := ofs + item_size * count in
    if ptrs_size =? 0 then Ok end_
    else endof_items (Z.to_nat count) s (ofs + data_size * 8) item_size ptrs_size end_.

  (** endof.py:82-84 *)
  Definition endof_list_ptr (s : seg) (ofs count : Z) : res Z :=
    endof_ptrs (Z.to_nat count) s ofs (ofs + 8 * count).

  (** endof.py:86-88 *)
  Definition endof_list_primitive (ofs item_size count : Z) : Z :=
    let item_size := list_item_length item_size in
    round_up_to_word (ofs + item_size * count).

  (** endof.py:90-92 *)
  Definition endof_list_bit (ofs count : Z) : Z :=
    let bytes_length := round_up_to_word count / 8 in
    round_up_to_word (ofs + bytes_length).
End with_rec.

(** endof.py:3-43 *)
Fixpoint endof (fuel : nat) (s : seg) (p ofs : Z) : res Z :=
  match fuel with
  | O => Err OutOfFuel
  | S fuel' =>
      let rec := endof fuel' in
      let k := kind p in
      let ofs := deref p ofs in
      if k =? STRUCT then
        endof_struct rec s ofs (struct_data_size p) (struct_ptrs_size p)
      else if k =? LIST then
        let item_size := list_size_tag p in
        let count := list_item_count p in
        if item_size =? LIST_SIZE_COMPOSITE then
          do tag <- read_ptr s ofs;
          endof_list_composite rec s ofs (offset tag) (struct_data_size tag)
                               (struct_ptrs_size tag)
        else if item_size =? LIST_SIZE_PTR then endof_list_ptr rec s ofs count
        else if item_size =? LIST_SIZE_BIT then Ok (endof_list_bit ofs count)
        else Ok (endof_list_primitive ofs item_size count)
      else if k =? FAR then Ok (-1)
      else Err AssertionError
  end.
