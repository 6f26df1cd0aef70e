(** Model of capnpy/list.py (List objects and item types) and of
    Struct._read_list. EnumItemType is PrimitiveItemType at int16 (its enum
    wrapper is in Enum.v); TextUnicodeItemType is TextItemType followed by
    utf-8 decoding, which is not modelled. *)
From Verif Require Import Base Spec Ptr Segment Builder Copy Endof Struct.

(** The item types: list.py:181-200 (Void), 203-222 (Bool), 225-258
    (Primitive), 275-306 (Struct, with its static sizes), 309-338 (Text with
    additional_size = -1, Data with 0), 360-387 (List) *)
Inductive itype :=
| ITVoid | ITBool | ITPrim (f : ifmt)
| ITFloat (dbl : bool)         (* PrimitiveItemType at float64 / float32 *)
| ITStruct (static_ds static_ps : Z)
| ITText (additional_size : Z)
| ITList (inner : itype).

(** A float is given by its bits, read as an unsigned integer *)
Definition float_fmt (dbl : bool) : ifmt := if dbl then FQ else FI.

(** [item_length]: list.py:184, 206, 230, 281, 316, 364 *)
Definition it_length (t : itype) : Z :=
  match t with
  | ITVoid => 0
  | ITBool => -1
  | ITPrim f => fsize f
  | ITFloat dbl => fsize (float_fmt dbl)
  | ITStruct ds ps => (ds + ps) * 8
  | ITText _ => 8
  | ITList _ => 8
  end.

(** [size_tag]: list.py:185, 207, 231-240, 282, 317, 365 *)
Definition it_size_tag (t : itype) : Z :=
  match t with
  | ITVoid => LIST_SIZE_VOID
  | ITBool => LIST_SIZE_BIT
  | ITPrim f =>
      if fsize f =? 1 then LIST_SIZE_8
      else if fsize f =? 2 then LIST_SIZE_16
      else if fsize f =? 4 then LIST_SIZE_32
      else LIST_SIZE_64
  | ITFloat dbl => if dbl then LIST_SIZE_64 else LIST_SIZE_32
  | ITStruct _ _ => LIST_SIZE_COMPOSITE
  | ITText _ => LIST_SIZE_PTR
  | ITList _ => LIST_SIZE_PTR
  end.

(** The instance attributes of a List (list.py:29-52) *)
Record lobj := mklobj {
  l_seg : seg; l_off : Z; l_stag : Z; l_tag : Z; l_count : Z; l_len : Z; l_ioff : Z;
  l_it : itype
}.

(** list.py:29-33 (_init_from_buffer) and 40-52 (_set_list_tag) *)
Definition list_init (s : seg) (offset_ size_tag item_count : Z) (t : itype) : res lobj :=
  if size_tag =? LIST_SIZE_COMPOSITE then
    do tag <- read_ptr s offset_;
    Ok {| l_seg := s; l_off := offset_; l_stag := size_tag; l_tag := tag;
          l_count := offset tag;
          l_len := (struct_data_size tag + struct_ptrs_size tag) * 8;
          l_ioff := 8; l_it := t |}
  else
    Ok {| l_seg := s; l_off := offset_; l_stag := size_tag; l_tag := -1;
          l_count := item_count; l_len := list_item_length size_tag;
          l_ioff := 0; l_it := t |}.

(** struct_.py:224-242 (_read_list), default_ = None *)
Definition o_read_list (o : obj) (offset : Z) (t : itype) : res (option lobj) :=
  do (offset, p) <- o_resolve o offset;
  if p =? 0 then Ok None
  else
    do _ <- py_assert (kind p =? LIST);
    do l <- list_init (o_seg o) (deref p offset) (list_size_tag p) (list_item_count p) t;
    Ok (Some l).

(** What reading an item gives *)
Inductive item :=
| INone                        (* the item of a void list *)
| IBool (b : bool)
| IInt (v : Z)
| IFloat (dbl : bool) (v : Z)  (* the float with these bits *)
| IObj (o : obj)
| IBytes (b : option bytes)
| IList (l : lobj).

(** list.py:165-166 *)
Definition offset_for_item (l : lobj) (i : Z) : Z := l_off l + l_ioff l + i * l_len l.

(** list.py:193-194, 215-219, 245-247, 290-295, 324-329, 370-381 (read_item) *)
Definition read_item (l : lobj) (i : Z) : res item :=
  match l_it l with
  | ITVoid => Ok INone
  | ITBool =>
      let byteoffset := i / 8 in
      let bitoffset := i mod 8 in
      let bitmask := Z.shiftl 1 bitoffset in
      do value <- read_primitive (l_seg l) (l_off l + byteoffset) Fb;
      Ok (IBool (negb (Z.land value bitmask =? 0)))
  | ITPrim f =>
      do v <- read_primitive (l_seg l) (l_off l + i * l_len l) f;
      Ok (IInt v)
  | ITFloat dbl =>
      do v <- read_primitive (l_seg l) (l_off l + i * l_len l) (float_fmt dbl);
      Ok (IFloat dbl v)
  | ITStruct _ _ =>
      do o <- init_from_buffer (l_seg l) (offset_for_item l i)
                (struct_data_size (l_tag l)) (struct_ptrs_size (l_tag l));
      Ok (IObj o)
  | ITText additional_size =>
      let offset := offset_for_item l i in
      do p <- read_ptr (l_seg l) offset;
      do (offset, p) <- (if kind p =? FAR then read_far_ptr (l_seg l) offset else Ok (offset, p));
      do b <- read_str (l_seg l) p offset None additional_size;
      Ok (IBytes b)
  | ITList inner =>
      let offset := l_off l + i * 8 in
      do p <- read_ptr (l_seg l) offset;
      do (offset, p) <- (if kind p =? FAR then read_far_ptr (l_seg l) offset else Ok (offset, p));
      do l' <- list_init (l_seg l) (deref p offset) (list_size_tag p) (list_item_count p) inner;
      Ok (IList l')
  end.

(** list.py:64-68 (__getitem__ with an integer) *)
Definition l_getitem (l : lobj) (i : Z) : res item :=
  let i := if i <? 0 then i + l_count l else i in
  if (0 <=? i) && (i <? l_count l) then read_item l i else Err IndexError.

(** [f(x) for x in l] *)
Fixpoint mapM {A B} (f : A -> res B) (l : list A) : res (list B) :=
  match l with
  | [] => Ok []
  | x :: r => do y <- f x; do ys <- mapM f r; Ok (y :: ys)
  end.

(** Python's range(start, stop, step), step <> 0: number of elements, then
    the elements (CPython's documented formula) *)
Definition range_len (start stop step : Z) : Z :=
  if 0 <? step then (if start <? stop then (stop - start - 1) / step + 1 else 0)
  else (if stop <? start then (start - stop - 1) / (- step) + 1 else 0).
Definition py_range (start stop step : Z) : list Z :=
  map (fun k => start + Z.of_nat k * step) (seq 0 (Z.to_nat (range_len start stop step))).

(** Python's slice(start, stop, step).indices(n) *)
Definition slice_indices (start stop step : option Z) (n : Z) : res (Z * Z * Z) :=
  let st := match step with None => 1 | Some x => x end in
  if st =? 0 then Err ValueError
  else
    let lower := if st <? 0 then -1 else 0 in
    let upper := if st <? 0 then n - 1 else n in
    let fix_ x := if x <? 0 then Z.max (x + n) lower else Z.min x upper in
    let a := match start with
             | None => if st <? 0 then upper else lower
             | Some x => fix_ x
             end in
    let b := match stop with
             | None => if st <? 0 then lower else upper
             | Some x => fix_ x
             end in
    Ok (a, b, st).

(** list.py:61-63 (__getitem__ with a slice) *)
Definition l_getslice (l : lobj) (start stop step : option Z) : res (list item) :=
  do (a, b, c) <- slice_indices start stop step (l_count l);
  mapM (read_item l) (py_range a b c).

(** Iteration: List defines no __iter__, so [for x in lst] calls
    __getitem__(0), (1), ... until it raises IndexError; any other exception
    propagates. [fuel] bounds the number of items. *)
Fixpoint l_iter (fuel : nat) (l : lobj) (i : Z) : res (list item) :=
  match fuel with
  | O => Err OutOfFuel
  | S fuel' =>
      match l_getitem l i with
      | Err IndexError => Ok []
      | Err e => Err e
      | Ok x => do r <- l_iter fuel' l (i + 1); Ok (x :: r)
      end
  end.

(** list.py:76-78 *)
Definition l_get_end (fuel : nat) (l : lobj) : res Z :=
  endof fuel (l_seg l) (new_list 0 (l_stag l) (l_count l)) (l_off l - 8).

(** list.py:80-85 *)
Definition l_get_slice (fuel : nat) (l : lobj) : res bytes :=
  do e <- l_get_end fuel l;
  Ok (py_slice (sbuf (l_seg l)) (l_off l) e).

(** list.py:174-175, 287-288 *)
Definition can_compare (t : itype) : bool := match t with ITStruct _ _ => false | _ => true end.

(** get_type() == get_type(): list.py:187, 209, 242, 267, 284, 319, 367; for
    ListItemType the tuple ('list', inner) compares the inner ItemType
    objects by identity, hence the parameter *)
Definition same_type (same_inner : bool) (a b : itype) : bool :=
  match a, b with
  | ITVoid, ITVoid => true
  | ITBool, ITBool => true
  | ITPrim Fb, ITPrim Fb | ITPrim FB, ITPrim FB | ITPrim Fh, ITPrim Fh | ITPrim FH, ITPrim FH
  | ITPrim Fi, ITPrim Fi | ITPrim FI, ITPrim FI | ITPrim Fq, ITPrim Fq | ITPrim FQ, ITPrim FQ => true
  | ITFloat x, ITFloat y => Bool.eqb x y
  | ITText x, ITText y => Z.eqb x y
  | ITList _, ITList _ => same_inner
  | _, _ => false
  end.

(** list.py:87-96, other is a capnpy List *)
Definition l_equals (fuel : nat) (same_inner : bool) (a b : lobj) : res bool :=
  if negb (can_compare (l_it a)) then Err TypeError
  else if (l_count a =? l_count b) && same_type same_inner (l_it a) (l_it b) then
    do x <- l_get_slice fuel a;
    do y <- l_get_slice fuel b;
    Ok (if list_eq_dec Byte.byte_eq_dec x y then true else false)
  else Ok false.
