(** Model of capnpy/segment/_copy_list.py (pure-Python mode) and of the
    write_item methods of capnpy/list.py: storing a Python sequence as a
    capnp list. *)
From Verif Require FloatBits.
From Verif Require Import Base Spec Ptr Segment Builder Copy Endof Struct List.

(** The Python objects that can be passed to a constructor. [PObj]: a struct
    of the class the schema asks for (of any other class it is [POther]);
    [PSeq]: a Python list or tuple; [PList]: a capnpy List; [PFloat]: a
    float, given by its bits (a Python float is a double); [PUndef]: the sentinel _undefined of the generated modules. str
    objects are represented by their utf-8 encoding, which is done before
    (structor.py:155-159, list.py:355-357). [PBuilder]: the SegmentBuilder
    of the constructor itself (a local variable). *)
Inductive pyval :=
| PUndef | PNone
| PInt (z : Z) | PBool (b : bool) | PFloat (b : Z)
| PBytes (b : bytes)
| PObj (o : obj)
| PList (l : lobj)
| PSeq (l : list pyval)
| PBuilder
| POther.

(** The Python object that reading an item of a capnpy List gives *)
Definition pv_item (x : item) : pyval :=
  match x with
  | INone => PNone
  | IBool b => PBool b
  | IInt z => PInt z
  | IFloat dbl v => PFloat (if dbl then v else FloatBits.to64 v)
  | IObj o => PObj o
  | IBytes None => PNone
  | IBytes (Some b) => PBytes b
  | IList l => PList l
  end.

(** [len(x)] *)
Definition py_len (x : pyval) : res Z :=
  match x with
  | PBytes b => Ok (blen b)
  | PList l => if l_count l <? 0 then Err ValueError else Ok (l_count l)
  | PSeq l => Ok (blen l)
  | _ => Err TypeError
  end.

(** the items of [for item in x] (Python 3: the items of a bytes are
    integers). Simplification: all the items are read before the first one is
    written; the two only differ when reading an item raises, and then the
    constructor raises anyway. *)
Definition py_iter (x : pyval) : res (list pyval) :=
  match x with
  | PBytes b => Ok (map (fun c => PInt (bZ c)) b)
  | PList l => do r <- l_iter (S (Z.to_nat (l_count l))) l 0; Ok (map pv_item r)
  | PSeq l => Ok l
  | _ => Err TypeError
  end.

(** What struct.pack accepts for an integer format; anything else is a
    struct.error (other objects with an __index__ are not modelled) *)
Definition as_int (x : pyval) : res Z :=
  match x with
  | PInt z => Ok z
  | PBool b => Ok (Z.b2z b)
  | _ => Err StructError
  end.

(** What struct.pack accepts for 'd' (PyFloat_AsDouble): a float, or an int
    converted to the nearest float; anything else, and an int which is too
    large, is a struct.error (other objects with a __float__ are not
    modelled) *)
Definition as_float (x : pyval) : option Z :=
  match x with
  | PFloat b => Some b
  | PInt z => FloatBits.int_to64 z
  | PBool b => FloatBits.int_to64 (Z.b2z b)
  | _ => None
  end.

(** builder.py:22-23, 49-53: struct.pack_into('d' / 'f'): the bits of the
    double, or of that double converted to a C float. The native formats do
    not check for overflow: a number which is too large becomes infinity. *)
Definition write_float (dbl : bool) (buf : bytes) (i : Z) (x : pyval) : res bytes :=
  match as_float x with
  | Some b => b_write (float_fmt dbl) buf i (if dbl then b else FloatBits.to32 b)
  | None => Err StructError
  end.

(** The argument of alloc_text and alloc_data (builder.py:93-106): None, or
    something with a length that can be assigned to a slice of a bytearray.
    Simplification: only bytes (Python also accepts lists of small ints). *)
Definition as_bytes (x : pyval) : res (option bytes) :=
  match x with
  | PNone => Ok None
  | PBytes b => Ok (Some b)
  | _ => Err TypeError
  end.

(** builder.py:108-115 (copy_from_struct) *)
Definition copy_struct_arg (fuel : nat) (buf : bytes) (pos : Z) (x : pyval) : res bytes :=
  match x with
  | PNone => copy_from_struct fuel buf pos None
  | PObj o => copy_from_struct fuel buf pos (Some o)
  | _ => Err TypeError
  end.

(** the loop of copy_from_list (_copy_list.py:46-48) *)
Fixpoint write_items (w : bytes -> Z -> pyval -> res bytes) (item_length : Z)
         (items : list pyval) (buf : bytes) (pos : Z) : res bytes :=
  match items with
  | [] => Ok buf
  | x :: r =>
      do buf <- w buf pos x;
      write_items w item_length r buf (pos + item_length)
  end.

(** _copy_list.py:22-48; [fuel] is the one of copy_pointer *)
Fixpoint copy_from_list (fuel : nat) (t : itype) (buf : bytes) (pos : Z) (lst : pyval) {struct t}
  : res bytes :=
  (* write_item: list.py:199-200 (Void), 177-178 (Bool has none), 257-258
     (Primitive), 300-306 (Struct), 334-338 (Text, Data), 386-387 (List) *)
  let write_item (buf : bytes) (pos : Z) (x : pyval) : res bytes :=
    match t with
    | ITVoid => Ok buf
    | ITBool => Err NotImplementedError
    | ITPrim f => do z <- as_int x; b_write f buf pos z
    | ITFloat dbl => write_float dbl buf pos x
    | ITStruct _ _ =>
        match x with
        | PObj o =>
            let p := as_pointer o 0 in
            copy_struct_inline (copy_pointer fuel) (o_seg o) p 0 buf pos
        | _ => Err TypeError
        end
    | ITText additional_size =>
        do s <- as_bytes x;
        do (buf, _) <- (if additional_size =? 0 then alloc_data buf pos s else alloc_text buf pos s);
        Ok buf
    | ITList inner => copy_from_list fuel inner buf pos x
    end in
  match lst with
  | PNone => write_int64 buf pos 0
  | _ =>
      let item_length := it_length t in
      let size_tag := it_size_tag t in
      do item_count <- py_len lst;
      let body_length := item_length * item_count in
      do (buf, pos) <-
         match t with
         | ITStruct data_size ptrs_size =>
             let total_words := (data_size + ptrs_size) * item_count in
             do (buf, pos) <- alloc_list buf pos size_tag total_words (body_length + 8);
             let tag := new_struct item_count data_size ptrs_size in
             do buf <- write_int64 buf pos tag;
             Ok (buf, pos + 8)
         | _ => alloc_list buf pos size_tag item_count body_length
         end;
      do items <- py_iter lst;
      write_items write_item item_length items buf pos
  end.
