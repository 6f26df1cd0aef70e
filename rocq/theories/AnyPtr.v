(** Model of capnpy/anypointer.py. The struct_ and the offset held by an
    AnyPointer are passed as arguments. *)
From Verif Require Import Base Spec Ptr Segment Struct List.

(** anypointer.py:12-14 *)
Definition ap_is_struct (o : obj) (offset : Z) : res bool :=
  do p <- o_read_fast_ptr o offset; Ok (kind p =? STRUCT).

(** anypointer.py:16-18 *)
Definition ap_is_list (o : obj) (offset : Z) : res bool :=
  do p <- o_read_fast_ptr o offset; Ok (kind p =? LIST).

(** anypointer.py:20-27 (is_text, is_data) *)
Definition ap_is_text (o : obj) (offset : Z) : res bool :=
  do p <- o_read_fast_ptr o offset; Ok ((kind p =? LIST) && (list_size_tag p =? LIST_SIZE_8)).

(** anypointer.py:32-33 *)
Definition ap_as_text_bytes (o : obj) (offset : Z) := o_read_data o offset None (-1).
(** anypointer.py:38-39 *)
Definition ap_as_data (o : obj) (offset : Z) := o_read_data o offset None 0.
(** anypointer.py:41-42 *)
Definition ap_as_struct (o : obj) (offset : Z) := o_read_struct o offset.
(** anypointer.py:44-55 *)
Definition ap_as_list (o : obj) (offset : Z) (t : itype) := o_read_list o offset t.
(** anypointer.py:57-59; None.dumps() is an AttributeError *)
Definition ap_dumps (fuel : nat) (o : obj) (offset : Z) (fastpath : bool) : res bytes :=
  do s <- ap_as_struct o offset;
  match s with None => Err AttributeError | Some x => dumps fuel x fastpath end.
