(** Property theorems C01-C07: pointers and primitives. *)
From Verif Require Import Base Spec Ptr Segment Builder PtrFinal PtrFacts.

(** C01 *)
Theorem C01_new_struct_roundtrip : forall off ds ps,
  - 2 ^ 29 <= off < 2 ^ 29 -> 0 <= ds < 2 ^ 16 -> 0 <= ps < 2 ^ 16 ->
  let p := new_struct off ds ps in
  0 <= p < 2 ^ 64 /\ kind p = STRUCT /\ offset p = off /\
  struct_data_size p = ds /\ struct_ptrs_size p = ps /\
  forall pos, deref p pos = pos + 8 + 8 * off.
Proof. exact f_new_struct. Qed.
Print Assumptions C01_new_struct_roundtrip.
Example C01_ex : let p := new_struct (-5) 40000 65535 in
  offset p = -5 /\ struct_data_size p = 40000 /\ struct_ptrs_size p = 65535 /\ deref p 80 = 48.
Proof. vm_compute. auto. Qed.

(** C02 *)
Theorem C02_new_list_roundtrip : forall off tag n,
  - 2 ^ 29 <= off < 2 ^ 29 -> 0 <= tag < 8 -> 0 <= n < 2 ^ 29 ->
  let p := new_list off tag n in
  0 <= p < 2 ^ 64 /\ kind p = LIST /\ offset p = off /\
  list_size_tag p = tag /\ list_item_count p = n /\
  forall pos, deref p pos = pos + 8 + 8 * off.
Proof. exact f_new_list. Qed.
Print Assumptions C02_new_list_roundtrip.
Example C02_ex : let p := new_list (-(2 ^ 29)) 7 (2 ^ 29 - 1) in
  offset p = - 2 ^ 29 /\ list_size_tag p = 7 /\ list_item_count p = 2 ^ 29 - 1.
Proof. vm_compute. auto. Qed.

(** C03 *)
Theorem C03_new_far_roundtrip : forall pad off sg,
  0 <= pad < 2 -> 0 <= off < 2 ^ 29 -> 0 <= sg < 2 ^ 32 ->
  let p := new_far pad off sg in
  0 <= p < 2 ^ 64 /\ kind p = FAR /\ far_landing_pad p = pad /\
  far_offset p = off /\ far_target p = sg.
Proof. exact f_new_far. Qed.
Print Assumptions C03_new_far_roundtrip.
Example C03_ex : let p := new_far 1 536870911 4294967295 in
  far_landing_pad p = 1 /\ far_offset p = 536870911 /\ far_target p = 4294967295.
Proof. vm_compute. auto. Qed.

(** C04: [p] ranges over all integers, in particular over the signed and the
    unsigned reading of a word; only [p mod 2^64] matters. *)
Theorem C04_decode : forall p,
  let u := p mod 2 ^ 64 in
  kind p = u mod 4 /\
  offset p = to_signed 30 ((u / 4) mod 2 ^ 30) /\
  struct_data_size p = (u / 2 ^ 32) mod 2 ^ 16 /\ struct_ptrs_size p = u / 2 ^ 48 /\
  list_size_tag p = (u / 2 ^ 32) mod 8 /\ list_item_count p = u / 2 ^ 35 /\
  far_landing_pad p = (u / 4) mod 2 /\ far_offset p = (u / 8) mod 2 ^ 29 /\
  far_target p = u / 2 ^ 32 /\
  forall pos, deref p pos = pos + 8 + 8 * offset p.
Proof. exact f_decode. Qed.
Print Assumptions C04_decode.

Theorem C04_decode_ranges : forall p,
  0 <= kind p < 4 /\ - 2 ^ 29 <= offset p < 2 ^ 29 /\
  0 <= struct_data_size p < 2 ^ 16 /\ 0 <= struct_ptrs_size p < 2 ^ 16 /\
  0 <= list_size_tag p < 8 /\ 0 <= list_item_count p < 2 ^ 29 /\
  0 <= far_landing_pad p < 2 /\ 0 <= far_offset p < 2 ^ 29 /\ 0 <= far_target p < 2 ^ 32.
Proof. exact f_decode_range. Qed.
Print Assumptions C04_decode_ranges.

Theorem C04_rebuild : forall p,
  (kind p = STRUCT ->
     new_struct (offset p) (struct_data_size p) (struct_ptrs_size p) = p mod 2 ^ 64) /\
  (kind p = LIST ->
     new_list (offset p) (list_size_tag p) (list_item_count p) = p mod 2 ^ 64) /\
  (kind p = FAR ->
     new_far (far_landing_pad p) (far_offset p) (far_target p) = p mod 2 ^ 64).
Proof. exact f_rebuild. Qed.
Print Assumptions C04_rebuild.
Example C04_ex : let p := -(2 ^ 60) - 4 * 3 in
  kind p = STRUCT /\ offset p = -3 /\ struct_data_size p = 65535 /\ struct_ptrs_size p = 61439.
Proof. vm_compute. auto. Qed.

(** C05: the C macros on 64-bit longs *)
Theorem C05_c_readers_agree : forall p,
  C_KIND p = kind p /\ C_OFFSET p = offset p /\ C_EXTRA p = extra p /\
  C_STRUCT_DATA_SIZE p = struct_data_size p /\ C_STRUCT_PTRS_SIZE p = struct_ptrs_size p /\
  C_LIST_SIZE_TAG p = list_size_tag p /\ C_LIST_ITEM_COUNT p = list_item_count p /\
  C_FAR_LANDING_PAD p = far_landing_pad p /\ C_FAR_OFFSET p = far_offset p /\
  C_FAR_TARGET p = far_target p.
Proof. exact f_c_readers. Qed.
Print Assumptions C05_c_readers_agree.

Theorem C05_c_arith_agrees : forall p x,
  - 2 ^ 62 <= x < 2 ^ 62 ->
  C_DEREF p x = deref p x /\ C_ROUND_UP_TO_WORD x = round_up_to_word x /\
  round_up_to_word x mod 8 = 0 /\ x <= round_up_to_word x < x + 8.
Proof. exact f_c_arith. Qed.
Print Assumptions C05_c_arith_agrees.

(** The C constructors return the signed 64-bit reading of what the Python
    ones return (so the same eight bytes are written). *)
Theorem C05_c_builders_agree : forall a b c k,
  0 <= k < 4 ->
  C_NEW_STRUCT a b c = wrap64 (new_struct a b c) /\
  C_NEW_LIST a b c = wrap64 (new_list a b c) /\
  C_NEW_FAR a b c = wrap64 (new_far a b c) /\
  C_NEW_GENERIC k a b mod 2 ^ 64 = new_generic k a b mod 2 ^ 64.
Proof. exact f_c_builders. Qed.
Print Assumptions C05_c_builders_agree.

Theorem C05_item_length_agrees : forall tag,
  0 <= tag < 8 -> list_item_length tag = pyx_list_item_length tag.
Proof. exact item_length_eq. Qed.
Print Assumptions C05_item_length_agrees.
Example C05_ex : C_OFFSET (-4) = -1 /\ C_DEREF (-8) 800 = 792 /\
  C_NEW_STRUCT (-1) 3 65535 = wrap64 (new_struct (-1) 3 65535) /\ C_NEW_STRUCT (-1) 3 65535 < 0.
Proof. vm_compute. auto. Qed.

(** C06 *)
Theorem C06_write_then_read : forall f buf i v,
  fmin f <= v <= fmax f -> 0 <= i -> i + fsize f <= blen buf ->
  exists buf',
    b_write f buf i v = Ok buf' /\
    blen buf' = blen buf /\
    (forall offs, read_primitive (mkseg buf' offs) i f = Ok v) /\
    (forall k, 0 <= k < blen buf -> ~ (i <= k < i + fsize f) -> getb buf' k = getb buf k).
Proof. exact f_write_read. Qed.
Print Assumptions C06_write_then_read.

Theorem C06_out_of_range_rejected : forall f buf i v,
  ~ (fmin f <= v <= fmax f) -> b_write f buf i v = Err StructError.
Proof. exact f_write_reject. Qed.
Print Assumptions C06_out_of_range_rejected.
Example C06_ex : fmin Fh <= -2 <= fmax Fh /\
  b_write Fh (zeros 5) 2 (-2) = Ok [x00; x00; xfe; xff; x00] /\
  b_write Fh (zeros 5) 2 32768 = Err StructError.
Proof. vm_compute. repeat split; discriminate. Qed.

(** C07 *)
Theorem C07_read_primitive_total : forall s i f,
  (0 <= i /\ i + fsize f <= slen s ->
     exists v, read_primitive s i f = Ok v /\ fmin f <= v <= fmax f /\
       v mod 2 ^ (8 * fsize f) = le_dec (sub (sbuf s) i (fsize f))) /\
  (~ (0 <= i /\ i + fsize f <= slen s) -> read_primitive s i f = Err IndexError).
Proof. exact f_read_total. Qed.
Print Assumptions C07_read_primitive_total.
Example C07_ex : let s := mkseg [x01; xff; xfe; xff; x00] None in
  read_primitive s 1 Fh = Ok (-257) /\ read_primitive s 3 FI = Err IndexError /\
  read_primitive s (-1) Fb = Err IndexError.
Proof. vm_compute. auto. Qed.
