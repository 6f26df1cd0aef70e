(** Model of capnpy/ptr.py (pure Python) and capnpy/ptr.h (C macros). *)
From Verif Require Import Base.

(** ** ptr.py *)

(** ptr.py:14-24 (constants) *)
Definition STRUCT := 0.
Definition LIST := 1.
Definition FAR := 2.
Definition LIST_SIZE_VOID := 0.
Definition LIST_SIZE_BIT := 1.
Definition LIST_SIZE_8 := 2.
Definition LIST_SIZE_16 := 3.
Definition LIST_SIZE_32 := 4.
Definition LIST_SIZE_64 := 5.
Definition LIST_SIZE_PTR := 6.
Definition LIST_SIZE_COMPOSITE := 7.

(** pypytools.cast.as_signed, used at ptr.py:51 (external library; its
    documented behaviour: reinterpret an unsigned number of [bits] bits) *)
Definition as_signed (x bits : Z) : Z :=
  if Z.shiftl 1 (bits - 1) <=? x then x - Z.shiftl 1 bits else x.

(** ptr.py:40-45 *)
Definition new_generic (kind offset extra : Z) : Z :=
  Z.lor (Z.lor (Z.lor 0 (Z.shiftl extra 32)) (Z.shiftl offset 2)) kind.

(** ptr.py:47-48 *)
Definition kind (ptr : Z) : Z := Z.land ptr 3.

(** ptr.py:50-51 *)
Definition offset (ptr : Z) : Z := as_signed (Z.land (Z.shiftr ptr 2) 0x3fffffff) 30.

(** ptr.py:53-54 *)
Definition extra (ptr : Z) : Z := Z.shiftr ptr 32.

(** ptr.py:56-63 *)
Definition deref (ptr ofs : Z) : Z := ofs + (offset ptr + 1) * 8.

(** ptr.py:81-87 *)
Definition new_struct (offset data_size ptrs_size : Z) : Z :=
  let p := 0 in
  let p := Z.lor p (Z.shiftl ptrs_size 48) in
  let p := Z.lor p (Z.land (Z.shiftl data_size 32) 0xffff00000000) in
  let p := Z.lor p (Z.land (Z.shiftl offset 2) 0xfffffffc) in
  let p := Z.lor p STRUCT in
  p.

(** ptr.py:89-90 *)
Definition struct_data_size (ptr : Z) : Z := Z.land (Z.shiftr ptr 32) 0xffff.

(** ptr.py:92-93 *)
Definition struct_ptrs_size (ptr : Z) : Z := Z.land (Z.shiftr ptr 48) 0xffff.

(** ptr.py:119-125 *)
Definition new_list (ptr_offset size_tag item_count : Z) : Z :=
  let p := 0 in
  let p := Z.lor p (Z.shiftl item_count 35) in
  let p := Z.lor p (Z.land (Z.shiftl size_tag 32) 0x700000000) in
  let p := Z.lor p (Z.land (Z.shiftl ptr_offset 2) 0xfffffffc) in
  let p := Z.lor p LIST in
  p.

(** ptr.py:127-128 *)
Definition list_size_tag (ptr : Z) : Z := Z.land (Z.shiftr ptr 32) 7.

(** ptr.py:130-131 *)
Definition list_item_count (ptr : Z) : Z := Z.land (Z.shiftr ptr 35) 0x1fffffff.

(** ptr.py:133-135: indexing the tuple (0, -1, 1, 2, 4, 8, 8, -1); the model
    is only meant for tags 0..7 (the only ones list_size_tag can return),
    other indices give IndexError or count from the end in Python. *)
Definition list_item_length (size_tag : Z) : Z :=
  nth (Z.to_nat size_tag) [0; -1; 1; 2; 4; 8; 8; -1] (-1).

(** ptr.py:155-161 *)
Definition new_far (landing_pad offset target : Z) : Z :=
  let p := 0 in
  let p := Z.lor p (Z.shiftl target 32) in
  let p := Z.lor p (Z.land (Z.shiftl offset 3) 0xfffffff8) in
  let p := Z.lor p (Z.land (Z.shiftl landing_pad 2) 4) in
  let p := Z.lor p FAR in
  p.

(** ptr.py:163-164 *)
Definition far_landing_pad (ptr : Z) : Z := Z.land (Z.shiftr ptr 2) 1.

(** ptr.py:166-167 *)
Definition far_offset (ptr : Z) : Z := Z.land (Z.shiftr ptr 3) 0x1fffffff.

(** ptr.py:169-170 *)
Definition far_target (ptr : Z) : Z := Z.land (Z.shiftr ptr 32) 0xffffffff.

(** ptr.py:172-173 *)
Definition round_up_to_word (pos : Z) : Z := Z.land (pos + (8 - 1)) (-8).

(** ** ptr.h

    C's [long] is 64 bits wide (the library assumes LP64: "ctypedef long" is
    used for pointers everywhere). Every intermediate result is reduced to a
    signed 64-bit number; [>>] on a negative long is arithmetic (gcc). The
    macros are always used on [long] arguments (ptr.pxd declares them so). *)
Definition wrap64 (x : Z) : Z := to_signed 64 (x mod 2 ^ 64).

Definition c_shl (x n : Z) : Z := wrap64 (Z.shiftl x n).
Definition c_shr (x n : Z) : Z := Z.shiftr x n.
Definition c_add (x y : Z) : Z := wrap64 (x + y).
Definition c_mul (x y : Z) : Z := wrap64 (x * y).

(** ptr.h:29 *)
Definition C_CAST_AS_SIGNED (x bits : Z) : Z := c_shr (c_shl x (64 - bits)) (64 - bits).
(** ptr.h:32 *)
Definition C_NEW_GENERIC (kind offset extra : Z) : Z :=
  Z.lor (Z.lor (c_shl extra 32) (c_shl offset 2)) kind.
(** ptr.h:33 *)
Definition C_KIND (ptr : Z) : Z := Z.land ptr 3.
(** ptr.h:34 *)
Definition C_OFFSET (ptr : Z) : Z := C_CAST_AS_SIGNED (Z.land (c_shr ptr 2) 0x3fffffff) 30.
(** ptr.h:35 *)
Definition C_EXTRA (ptr : Z) : Z := c_shr ptr 32.
(** ptr.h:36 *)
Definition C_DEREF (ptr ofs : Z) : Z := c_add ofs (c_mul (c_add (C_OFFSET ptr) 1) 8).
(** ptr.h:39-43 *)
Definition C_NEW_STRUCT (offset data_size ptrs_size : Z) : Z :=
  Z.lor (Z.lor (Z.lor (c_shl ptrs_size 48)
                      (Z.land (c_shl data_size 32) 0xffff00000000))
               (Z.land (c_shl offset 2) 0xfffffffc)) 0.
(** ptr.h:45-46 *)
Definition C_STRUCT_DATA_SIZE (ptr : Z) : Z := Z.land (c_shr ptr 32) 0xffff.
Definition C_STRUCT_PTRS_SIZE (ptr : Z) : Z := Z.land (c_shr ptr 48) 0xffff.
(** ptr.h:49-53 *)
Definition C_NEW_LIST (ptr_offset size_tag item_count : Z) : Z :=
  Z.lor (Z.lor (Z.lor (c_shl item_count 35)
                      (Z.land (c_shl size_tag 32) 0x700000000))
               (Z.land (c_shl ptr_offset 2) 0xfffffffc)) 1.
(** ptr.h:55-56 *)
Definition C_LIST_SIZE_TAG (ptr : Z) : Z := Z.land (c_shr ptr 32) 7.
Definition C_LIST_ITEM_COUNT (ptr : Z) : Z := Z.land (c_shr ptr 35) 0x1fffffff.
(** ptr.h:59-63 *)
Definition C_NEW_FAR (landing_pad offset target : Z) : Z :=
  Z.lor (Z.lor (Z.lor (c_shl target 32)
                      (Z.land (c_shl offset 3) 0xfffffff8))
               (Z.land (c_shl landing_pad 2) 4)) 2.
(** ptr.h:65-67 *)
Definition C_FAR_LANDING_PAD (ptr : Z) : Z := Z.land (c_shr ptr 2) 1.
Definition C_FAR_OFFSET (ptr : Z) : Z := Z.land (c_shr ptr 3) 0x1fffffff.
Definition C_FAR_TARGET (ptr : Z) : Z := Z.land (c_shr ptr 32) 0xffffffff.
(** ptr.h:69 *)
Definition C_ROUND_UP_TO_WORD (i : Z) : Z := Z.land (c_add i 7) (-8).

(** ptr.pyx:78-94 (cpdef long list_item_length) *)
Definition pyx_list_item_length (size_tag : Z) : Z :=
  if size_tag =? 0 then 0
  else if size_tag =? 1 then -1
  else if size_tag =? 2 then 1
  else if size_tag =? 3 then 2
  else if size_tag =? 4 then 4
  else if size_tag =? 5 then 8
  else if size_tag =? 6 then 8
  else -1.
