(** Chains of reads: a little language of "field of struct, item of list,
    ..." accesses, its meaning on capnpy objects ([run_s], [run_l], built from
    the model's getters) and, independently, on values ([vrun_s], [vrun_l],
    part of the specification). *)
From Verif Require Import Base Spec Ptr Segment Struct List.

Inductive query :=
| QPrim (off : Z) (f : ifmt)                          (* scalar field *)
| QBit (off mask : Z)                                 (* bool field *)
| QBytes (k : Z) (dflt : option bytes) (add : Z)      (* data (0) / text (-1) field, pointer number k *)
| QStruct (k : Z) (q : query)                         (* struct field, then q *)
| QList (k : Z) (t : itype) (q : lquery)              (* list field, then q *)
with lquery :=
| LLen                                                (* len(l) *)
| LLeaf (i : Z)                                       (* l[i], a scalar or text *)
| LStruct (i : Z) (q : query)                         (* l[i] is a struct, then q *)
| LList (i : Z) (q : lquery).                         (* l[i] is a list, then q *)

Inductive ans := ANone | AInt (v : Z) | ABool (b : bool) | ABytes (b : option bytes) | AOther.

(** ** On objects *)
Fixpoint run_s (q : query) (o : obj) : res ans :=
  match q with
  | QPrim off f => do v <- o_read_primitive o off f; Ok (AInt v)
  | QBit off mask => do b <- o_read_bit o off mask; Ok (ABool b)
  | QBytes k dflt add => do b <- o_read_data o (8 * k) dflt add; Ok (ABytes b)
  | QStruct k q =>
      do x <- o_read_struct o (8 * k);
      match x with None => Ok ANone | Some o' => run_s q o' end
  | QList k t q =>
      do x <- o_read_list o (8 * k) t;
      match x with None => Ok ANone | Some l => run_l q l end
  end
with run_l (q : lquery) (l : lobj) : res ans :=
  match q with
  | LLen => Ok (AInt (l_count l))
  | LLeaf i =>
      do x <- l_getitem l i;
      match x with
      | INone => Ok ANone | IBool b => Ok (ABool b) | IInt v => Ok (AInt v) | IFloat _ v => Ok (AInt v)
      | IBytes b => Ok (ABytes b) | _ => Ok AOther
      end
  | LStruct i q =>
      do x <- l_getitem l i;
      match x with IObj o => run_s q o | _ => Ok AOther end
  | LList i q =>
      do x <- l_getitem l i;
      match x with IList l' => run_l q l' | _ => Ok AOther end
  end.

(** ** On values

    [None] means that the type in the query does not fit the data (for
    instance a list of 32-bit numbers read as a list of texts): nothing is
    claimed then. *)

(** A scalar of a data section; beyond its end everything is zero. *)
Definition v_prim (d : bytes) (off : Z) (f : ifmt) : Z :=
  if blen d <=? off then 0 else fdec f (sub d off (fsize f)).

(** Pointer number [k] of a pointer section; beyond its end everything is
    null. *)
Definition v_ptr (vs : list value) (k : Z) : value := nth (Z.to_nat k) vs VNull.

Definition vbytes (v : value) (dflt : option bytes) (add : Z) : option (res (option bytes)) :=
  match v with
  | VNull => Some (Ok dflt)
  | VList t c b =>
      if t =? 2
      then if (0 <=? c + add) && (add <=? 0) then Some (Ok (Some (sub b 0 (c + add)))) else None
      else Some (Err AssertionError)
  | _ => Some (Err AssertionError)
  end.

Definition vcount (v : value) : Z :=
  match v with
  | VList _ c _ => c
  | VPtrs vs => blen vs
  | VComp _ _ items _ => blen items
  | _ => 0
  end.

Inductive vitem :=
| VINone | VIBool (b : bool) | VIInt (v : Z) | VIFloat (dbl : bool) (v : Z) | VIObj (d : bytes) (vs : list value)
| VIBytes (r : res (option bytes)) | VIList (v : value).

(** Size tag of a list of scalars *)
Definition tag_of (f : ifmt) : Z :=
  match f with Fb | FB => 2 | Fh | FH => 3 | Fi | FI => 4 | Fq | FQ => 5 end.

(** Item number [i] (in range) *)
Definition v_item (t : itype) (v : value) (i : Z) : option vitem :=
  match t, v with
  | ITVoid, _ => Some VINone
  | ITBool, VList tag c b =>
      if tag =? 1 then Some (VIBool (Z.testbit (bZ (getb b (i / 8))) (i mod 8))) else None
  | ITPrim f, VList tag c b =>
      if tag =? tag_of f then Some (VIInt (fdec f (sub b (i * fsize f) (fsize f)))) else None
  | ITFloat dbl, VList tag c b =>
      if tag =? (if dbl then 5 else 4)
      then Some (VIFloat dbl (le_dec (sub b (i * (if dbl then 8 else 4)) (if dbl then 8 else 4)))) else None
  | ITStruct _ _, VComp _ _ items _ =>
      match nth_error items (Z.to_nat i) with
      | Some (d, vs) => Some (VIObj d vs)
      | None => None
      end
  | ITText add, VPtrs vs =>
      match vbytes (v_ptr vs i) None add with
      | Some r => Some (VIBytes r)
      | None => None
      end
  | ITList _, VPtrs vs =>
      match v_ptr vs i with
      | VStruct _ _ => None
      | x => Some (VIList x)
      end
  | _, _ => None
  end.

Definition inner_type (t : itype) : itype := match t with ITList t' => t' | _ => t end.

(** Python's indexing of a sequence of [n] items *)
Definition v_index (n i : Z) : option Z :=
  if (0 <=? i) && (i <? n) then Some i
  else if (- n <=? i) && (i <? 0) then Some (n + i)
  else None.

Fixpoint vrun_s (q : query) (d : bytes) (vs : list value) : option (res ans) :=
  match q with
  | QPrim off f =>
      if (0 <=? off) && (off mod fsize f =? 0) then Some (Ok (AInt (v_prim d off f))) else None
  | QBit off mask =>
      if 0 <=? off then Some (Ok (ABool (negb (Z.land (v_prim d off FB) mask =? 0)))) else None
  | QBytes k dflt add =>
      if 0 <=? k then
        match vbytes (v_ptr vs k) dflt add with
        | Some (Ok b) => Some (Ok (ABytes b))
        | Some (Err e) => Some (Err e)
        | None => None
        end
      else None
  | QStruct k q =>
      if 0 <=? k then
        match v_ptr vs k with
        | VNull => Some (Ok ANone)
        | VStruct d' vs' => vrun_s q d' vs'
        | _ => Some (Err AssertionError)
        end
      else None
  | QList k t q =>
      if 0 <=? k then
        match v_ptr vs k with
        | VNull => Some (Ok ANone)
        | VStruct _ _ => Some (Err AssertionError)
        | v => vrun_l q t v
        end
      else None
  end
with vrun_l (q : lquery) (t : itype) (v : value) : option (res ans) :=
  let at_item i (k : vitem -> option (res ans)) :=
    match v_index (vcount v) i with
    | None => Some (Err IndexError)
    | Some i =>
        match v_item t v i with
        | None => None
        | Some (VIBytes (Err e)) => Some (Err e)
        | Some x => k x
        end
    end in
  match q with
  | LLen => Some (Ok (AInt (vcount v)))
  | LLeaf i =>
      at_item i (fun x =>
        match x with
        | VINone => Some (Ok ANone) | VIBool b => Some (Ok (ABool b)) | VIInt z => Some (Ok (AInt z))
        | VIFloat _ z => Some (Ok (AInt z))
        | VIBytes (Ok b) => Some (Ok (ABytes b)) | _ => Some (Ok AOther)
        end)
  | LStruct i q =>
      at_item i (fun x => match x with VIObj d vs => vrun_s q d vs | _ => Some (Ok AOther) end)
  | LList i q =>
      at_item i (fun x => match x with VIList v' => vrun_l q (inner_type t) v' | _ => Some (Ok AOther) end)
  end.

(** ** Which value an object designates *)

(** A struct object: its three size/offset attributes are consistent and the
    body at its position has the value. *)
Definition obj_den (o : obj) (d : bytes) (vs : list value) : Prop :=
  o_ptrs o = o_off o + 8 * o_ds o /\ 0 <= o_ds o < 2 ^ 16 /\ 0 <= o_ps o < 2 ^ 16 /\
  bytes_at (o_seg o) (o_off o) (8 * o_ds o) = Some d /\
  den_ptrs (o_seg o) (o_off o + 8 * o_ds o) (Z.to_nat (o_ps o)) vs.
