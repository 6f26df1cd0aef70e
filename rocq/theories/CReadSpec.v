(** What the comparison of the two libraries is about: objects whose buffer
    is smaller than 2^60 bytes (any buffer that exists), and the difference
    between the two libraries in the cases where the pure one raises. *)
From Verif Require Import Base Spec Ptr Segment Builder Copy Endof Struct List.

(** a buffer in memory, and the table of the segments of a message in it *)
Definition long_seg (s : seg) : Prop :=
  blen (sbuf s) < 2 ^ 60 /\
  match soffs s with
  | None => True
  | Some t => Forall (fun x => 0 <= x <= blen (sbuf s)) t
  end.

(** a struct object; its offset may be before the beginning of the buffer,
    because a pointer may say so *)
Definition long_obj (o : obj) : Prop :=
  long_seg (o_seg o) /\ - 2 ^ 41 <= o_off o <= blen (sbuf (o_seg o)) /\
  o_ptrs o = o_off o + 8 * o_ds o /\ 0 <= o_ds o < 2 ^ 16 /\ 0 <= o_ps o < 2 ^ 16.

(** a list object; nothing is read from an empty one *)
Definition long_list (l : lobj) : Prop :=
  long_seg (l_seg l) /\ - 2 ^ 30 <= l_count l < 2 ^ 30 /\
  (l_count l = 0 \/
   (- 2 ^ 40 <= l_off l <= 2 ^ 61 /\ -1 <= l_len l < 2 ^ 20 /\ 0 <= l_ioff l <= 8)).

(** item types as they are built: text is -1, data is 0 *)
Fixpoint it_ok (t : itype) : Prop :=
  match t with ITText a => -1 <= a <= 0 | ITList u => it_ok u | _ => True end.

(** [differ P pure compiled]: the compiled call does what the pure one does;
    except that, where the pure one raises IndexError, the compiled one may
    fail an assertion or return a value of [P] (a null). *)
Definition differ {A} (P : A -> Prop) (pure compiled : res A) : Prop :=
  compiled = pure \/
  (pure = Err IndexError /\ (compiled = Err AssertionError \/ exists x, compiled = Ok x /\ P x)).

(** an empty list, or no list *)
Definition no_list (x : option lobj) : Prop :=
  match x with None => True | Some l => l_count l = 0 end.
Definition no_item (x : item) : Prop :=
  match x with IBytes None => True | IList l => l_count l = 0 | _ => False end.

(** ** Walks: any sequence of field and item accesses from an object *)
Inductive step :=
| SStruct (off : Z)                (* obj.foo, a struct field *)
| SList (off : Z) (t : itype)      (* obj.foo, a list field *)
| SItem (i : Z).                   (* lst[i], a struct or a list *)

Inductive query :=
| QPrim (off : Z) (f : ifmt)       (* an integer field *)
| QBit (off bitmask : Z)           (* a bool field *)
| QData (off : Z) (default_ : option bytes) (text : bool)
| QWhich (off : Z)                 (* which() *)
| QItem (i : Z)                    (* lst[i], a scalar, a text or a data *)
| QLen.                            (* len(lst) *)

Inductive handle := HNone | HObj (o : obj) | HList (l : lobj).
Inductive answer := ANum (z : Z) | ABool (b : bool) | ABytes (b : option bytes) | ANone.

(** offsets of fields in a struct: at most 65535 words *)
Definition field_off (off : Z) : Prop := 0 <= off < 2 ^ 19.
Definition step_ok (x : step) : Prop :=
  match x with
  | SStruct off => field_off off
  | SList off t => field_off off /\ it_ok t
  | SItem _ => True
  end.
Definition query_ok (q : query) : Prop :=
  match q with QPrim off _ | QBit off _ | QData off _ _ | QWhich off => field_off off | _ => True end.

Section walk.
  Variable r_struct : obj -> Z -> res (option obj).
  Variable r_list : obj -> Z -> itype -> res (option lobj).
  Variable r_item : lobj -> Z -> res item.
  Variable r_prim : obj -> Z -> ifmt -> res Z.
  Variable r_bit : obj -> Z -> Z -> res bool.
  Variable r_data : obj -> Z -> option bytes -> Z -> res (option bytes).
  Variable r_which : obj -> Z -> res Z.

  Definition do_step (h : handle) (x : step) : res handle :=
    match h, x with
    | HObj o, SStruct off =>
        do r <- r_struct o off; Ok (match r with Some o' => HObj o' | None => HNone end)
    | HObj o, SList off t =>
        do r <- r_list o off t; Ok (match r with Some l => HList l | None => HNone end)
    | HList l, SItem i =>
        do x <- r_item l i;
        match x with IObj o => Ok (HObj o) | IList l' => Ok (HList l') | _ => Err TypeError end
    | _, _ => Err AttributeError
    end.

  Fixpoint do_steps (h : handle) (xs : list step) : res handle :=
    match xs with
    | [] => Ok h
    | x :: r => do h <- do_step h x; do_steps h r
    end.

  Definition do_query (h : handle) (q : query) : res answer :=
    match h, q with
    | HObj o, QPrim off f => do z <- r_prim o off f; Ok (ANum z)
    | HObj o, QBit off m => do b <- r_bit o off m; Ok (ABool b)
    | HObj o, QData off d text => do b <- r_data o off d (if text then -1 else 0); Ok (ABytes b)
    | HObj o, QWhich off => do z <- r_which o off; Ok (ANum z)
    | HList l, QItem i =>
        do x <- r_item l i;
        match x with
        | IInt z => Ok (ANum z) | IFloat _ z => Ok (ANum z) | IBool b => Ok (ABool b) | IBytes b => Ok (ABytes b)
        | INone => Ok ANone | _ => Err TypeError
        end
    | HList l, QLen => Ok (ANum (l_count l))
    | _, _ => Err AttributeError
    end.

  Definition walk (h : handle) (xs : list step) (q : query) : res answer :=
    do h <- do_steps h xs; do_query h q.
End walk.
