(** Model of shortrepr(): the code generated by compiler/struct_.py:206-272,
    list.py:98-100 and the item_repr methods, util.py:90-108. Texts are lists
    of code points. *)
From Coq Require Import Strings.String.
From Verif Require Import Base Spec Ptr Segment Builder Struct List Case Enum CopyList Ctor Utf8 Loader.
From Coq Require Import Lists.List.
Local Notation length := Datatypes.length.

(** ** Numbers *)

(** str(int) (CPython) *)
Fixpoint digits (fuel : nat) (z : Z) : str :=
  match fuel with
  | O => []
  | S fuel' => (if z <? 10 then [] else digits fuel' (z / 10)) ++ [48 + z mod 10]
  end.
Definition dec_nat (z : Z) : str := digits (S (Z.to_nat (Z.log2 z))) z.
Definition dec (z : Z) : str := if z <? 0 then 45 :: dec_nat (- z) else dec_nat z.

(** The printing of floats (util.py:111-114, the floatrepr extension) is a
    parameter: from the bits to a text. *)
Record floats := mkfloats { fp32 : Z -> str; fp64 : Z -> str }.

(** ** Strings *)

(** util.py:93-96 *)
Definition text_unicode_repr (s : str) : str :=
  [34] ++ replace 39 [92; 39] (replace 34 [92; 34] s) ++ [34].

(** util.py:90-91: None.replace is an AttributeError *)
Definition text_bytes_repr (b : option bytes) : res str :=
  do s <- decode_maybe b;
  match s with None => Err AttributeError | Some s => Ok (text_unicode_repr s) end.

(** repr(bytes) of CPython, after the b *)
Definition hexdigit (n : Z) : Z := if n <? 10 then 48 + n else 87 + n.
Definition repr_byte (quote : Z) (b : byte) : str :=
  let c := bZ b in
  if (c =? quote) || (c =? 92) then [92; c]
  else if c =? 9 then [92; 116]
  else if c =? 10 then [92; 110]
  else if c =? 13 then [92; 114]
  else if (c <? 32) || (127 <=? c) then [92; 120; hexdigit (c / 16); hexdigit (c mod 16)]
  else [c].
Definition has_byte (z : Z) (b : bytes) : bool := existsb (fun x => bZ x =? z) b.
Definition bytes_quote (b : bytes) : Z := if has_byte 39 b && negb (has_byte 34 b) then 34 else 39.
Definition bytes_repr (b : bytes) : str :=
  let q := bytes_quote b in [q] ++ flat_map (repr_byte q) b ++ [q].

(** util.py:98-108, Python 3: lstrip('b') takes away the b *)
Definition data_repr (b : bytes) : str :=
  let s := bytes_repr b in
  if match s with c :: _ => c =? 34 | [] => false end
  then replace 39 [92; 39] s
  else [34] ++ removelast (tl (replace 34 [92; 34] s)) ++ [34].

(** sep.join(parts) *)
Fixpoint join_with (sep : str) (l : list str) : str :=
  match l with
  | [] => []
  | [x] => x
  | x :: r => x ++ sep ++ join_with sep r
  end.
Definition comma : str := lit ", ".

(** ** Schemas *)

(** Types, as far as printing goes. An enum: the name of its class, its
    members under their Python names (compiler/enum.py:15-18) and under their
    names in the schema. *)
Inductive rty :=
| RVoid | RBool | RPrim (f : ifmt) | RFloat32 | RFloat64
| REnum (cls : str) (members caps : list str)
| RText (unicode : bool) | RData | RStruct (c : nat) | RList (t : rty) | RAny.

Inductive rkind :=
| KSlot (t : rty) (off : Z) (dflt : Z)
| KGrp (c : nat) (nullable : bool).

(** A field: capnp_field_name, discriminantValue, what it is. A group is a
    class of its own. *)
Record rfield := mkrf { rf_cap : str; rf_disc : option Z; rf_kind : rkind }.
(** A class: static sizes, discriminantOffset, fields *)
Record rclass := mkrc { rc_ds : Z; rc_ps : Z; rc_utag : option Z; rc_fields : list rfield }.
Definition schema := nat -> rclass.

(** The item types of lists: compiler/misc.py:45-82 *)
Fixpoint itype_of (S : schema) (t : rty) : itype :=
  match t with
  | RVoid => ITVoid
  | RBool => ITBool
  | RPrim f => ITPrim f
  | RFloat32 => ITFloat false
  | RFloat64 => ITFloat true
  | REnum _ _ _ => ITPrim Fh
  | RText _ => ITText (-1)
  | RData => ITText 0
  | RStruct c => ITStruct (rc_ds (S c)) (rc_ps (S c))
  | RList t => ITList (itype_of S t)
  | RAny => ITVoid
  end.

Definition ftype_of (S : schema) (t : rty) : ftype :=
  match t with
  | RVoid => TVoid
  | RBool => TBool
  | RPrim f => TPrim f
  | RFloat32 => TFloat32
  | RFloat64 => TFloat64
  | REnum _ _ _ => TEnum
  | RText _ => TText
  | RData => TData
  | RStruct _ => TStruct
  | RList t => TList (itype_of S t)
  | RAny => TAny
  end.

(** The field as the getters of Ctor.v want it *)
Definition slot_of (S : schema) (f : rfield) : field :=
  match rf_kind f with
  | KSlot t off d => FSlot EmptyString 0 (rf_disc f) (ftype_of S t) off (negb (d =? 0)) d
  | KGrp _ n => FGroup EmptyString 0 (rf_disc f) n None []
  end.

(** ** Printing *)

Definition ename_str (n : ename) : str :=
  match n with EName s => s | EUnknown v => lit "unknown<" ++ dec v ++ lit ">" end.
Definition bool_str (b : bool) : str := if b then lit "true" else lit "false".

(** [f(item) for item in l]: iteration by __getitem__ until IndexError *)
Fixpoint iter_repr (f : item -> res str) (l : lobj) (n : nat) (i : Z) : res (list str) :=
  match n with
  | O => Ok []
  | S n' =>
      match l_getitem l i with
      | Err IndexError => Ok []
      | Err e => Err e
      | Ok x => do s <- f x; do r <- iter_repr f l n' (i + 1); Ok (s :: r)
      end
  end.

(** list.py:98-100 (the items are exhausted after [l_count] steps) *)
Definition list_repr (f : item -> res str) (l : lobj) : res str :=
  do parts <- iter_repr f l (S (Z.to_nat (l_count l))) 0;
  Ok ([91] ++ join_with comma parts ++ [93]).

(** list.py:196, 221, 249-255 (an enum item is printed by repr: enum.py:14-15),
    297, 331 (also for Data), 354, 383. [rec]: shortrepr of a struct. *)
Fixpoint item_repr (fp : floats) (rec : nat -> obj -> res str) (t : rty) (x : item) : res str :=
  match t, x with
  | RVoid, _ => Ok (lit "void")
  | RBool, IBool b => Ok (bool_str b)
  | RPrim _, IInt v => Ok (dec v)
  | RFloat32, IFloat false v => Ok (fp32 fp v)
  | RFloat64, IFloat true v => Ok (fp64 fp v)
  | REnum cls ms _, IInt v =>
      do n <- enum_str ms v;
      Ok (lit "<" ++ cls ++ lit "." ++ ename_str n ++ lit ": " ++ dec v ++ lit ">")
  | RText _, IBytes b => text_bytes_repr b
  | RData, IBytes b => text_bytes_repr b
  | RStruct c, IObj o => rec c o
  | RList t', IList l => list_repr (item_repr fp rec t') l
  | _, _ => Err TypeError
  end.

(** compiler/struct_.py:248-272 (_shortrepr_for_field), evaluated *)
Definition field_value (fp : floats) (S : schema) (rec : nat -> obj -> res str)
    (u : option Z) (o : obj) (f : rfield) : res str :=
  match rf_kind f with
  | KGrp c _ => do g <- get_group o u (slot_of S f); rec c g
  | KSlot RVoid _ _ => Ok (lit "void")
  | KSlot RAny _ _ => Ok (lit "???")
  | KSlot t _ _ =>
      do g <- (if ty_pointer (ftype_of S t) then get_method o u (slot_of S f) else get_slot o u (slot_of S f));
      match t, g with
      | RBool, GBool b => Ok (bool_str b)
      | RPrim _, GInt v => Ok (dec v)
      | RFloat32, GF32 v => Ok (fp32 fp v)
      | RFloat64, GF64 v => Ok (fp64 fp v)
      | REnum _ ms _, GInt v => do n <- enum_str ms v; Ok (ename_str n)
      | RText _, GBytes b => text_bytes_repr (Some b)
      | RData, GBytes b => Ok (data_repr b)
      | RStruct c, GObj o' => rec c o'
      | RList t', GList l => list_repr (item_repr fp rec t') l
      | _, _ => Err TypeError
      end
  end.

Definition is_ptr (S : schema) (f : rfield) : bool :=
  match rf_kind f with KSlot t _ _ => ty_pointer (ftype_of S t) | KGrp _ _ => false end.
Definition slot_index (f : rfield) : Z :=
  match rf_kind f with KSlot _ off _ => off | KGrp _ _ => 0 end.
Definition is_nullable (f : rfield) : bool :=
  match rf_kind f with KGrp _ n => n | _ => false end.

(** compiler/struct_.py:206-246: the part of one field, if it is shown. For a
    nullable member of a union the code calls is__x, which does not exist. *)
Definition field_part (fp : floats) (S : schema) (rec : nat -> obj -> res str)
    (u : option Z) (o : obj) (f : rfield) : res (list str) :=
  let append := do s <- field_value fp S rec u o f; Ok [rf_cap f ++ lit " = " ++ s] in
  match rf_disc f with
  | Some d =>
      if is_nullable f then Err AttributeError
      else
        do w <- which o u;
        if negb (w =? d) then Ok []
        else if is_ptr S f then
          do h <- has_slot o (slot_index f);
          if h || negb (d =? 0) then append else Ok []
        else append
  | None =>
      if is_ptr S f then
        do h <- has_slot o (slot_index f);
        if h then append else Ok []
      else append
  end.

Fixpoint parts (f : rfield -> res (list str)) (l : list rfield) : res (list str) :=
  match l with
  | [] => Ok []
  | x :: r => do a <- f x; do b <- parts f r; Ok (a ++ b)
  end.

(** obj.shortrepr(); [fuel]: depth of the calls *)
Fixpoint shortrepr (fuel : nat) (fp : floats) (S : schema) (c : nat) (o : obj) : res str :=
  match fuel with
  | O => Err OutOfFuel
  | Datatypes.S fuel' =>
      do ps <- parts (field_part fp S (shortrepr fuel' fp S) (rc_utag (S c)) o) (rc_fields (S c));
      Ok ([40] ++ join_with comma ps ++ [41])
  end.
