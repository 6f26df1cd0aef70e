(** Histories of builder operations, on the Python builder and on the
    compiled one. *)
From Verif Require Import Base Spec Ptr Segment Builder Copy Enc EncFacts BuilderC.

Inductive bop :=
| OWrite (f : ifmt) (i v : Z)
| OBool (byteoffset bitoffset : Z) (b : bool)
| OSlice (i : Z) (src : bytes) (start n : Z)
| OAllocate (n : Z)
| OStruct (pos ds ps : Z)
| OList (pos tag count body : Z)
| OText (pos : Z) (s : option bytes)
| OData (pos : Z) (s : option bytes)
| OCopy (src : seg) (p src_pos dst_pos : Z).

Section run.
  Variable fuel : nat.
  Variable junk : nat -> byte.

  Definition no_result {S} (r : res S) : res (S * Z) := do s <- r; Ok (s, 0).

  Definition py_step (o : bop) (buf : bytes) : res (bytes * Z) :=
    match o with
    | OWrite f i v => no_result (b_write f buf i v)
    | OBool i k b => no_result (write_bool buf i k (Z.b2z b))
    | OSlice i src start n => Ok (write_slice buf i src start n, 0)
    | OAllocate n => Ok (allocate buf n)
    | OStruct pos ds ps => alloc_struct buf pos ds ps
    | OList pos tag count body => alloc_list buf pos tag count body
    | OText pos s => alloc_text buf pos s
    | OData pos s => alloc_data buf pos s
    | OCopy src p src_pos dst_pos => no_result (copy_pointer fuel src p src_pos buf dst_pos)
    end.

  Definition c_step (o : bop) (st : cb) : res (cb * Z) :=
    match o with
    | OWrite f i v => no_result (c_write f st i v)
    | OBool i k b => no_result (c_write_bool st i k b)
    | OSlice i src start n => no_result (c_write_slice st i src start n)
    | OAllocate n => Ok (c_allocate junk st n)
    | OStruct pos ds ps => c_alloc_struct junk st pos ds ps
    | OList pos tag count body => c_alloc_list junk st pos tag count body
    | OText pos s => c_alloc_text_tz junk st pos s 1
    | OData pos s => c_alloc_text_tz junk st pos s 0
    | OCopy src p src_pos dst_pos => no_result (c_copy_pointer junk fuel src p src_pos st dst_pos)
    end.

  (** the values the calls return (0 for those that return nothing) *)
  Fixpoint run {S} (step : bop -> S -> res (S * Z)) (ops : list bop) (s : S) : res (S * list Z) :=
    match ops with
    | [] => Ok (s, [])
    | o :: r =>
        do (s, x) <- step o s;
        do (s, xs) <- run step r s;
        Ok (s, x :: xs)
    end.

  (** ** Specification: the operation is within the bytes allocated so far
      ([len]), its arguments fit their wire fields, and a copied object is
      well-formed; [len'] is what is allocated after it. *)
  Inductive fits : Z -> bop -> Z -> Prop :=
  | fit_write : forall len f i v, in_fmt f v -> 0 <= i -> i + fsize f <= len -> fits len (OWrite f i v) len
  | fit_bool : forall len i k b, 0 <= i < len -> 0 <= k < 8 -> fits len (OBool i k b) len
  | fit_slice : forall len i src start n,
      0 <= i -> 0 <= n -> i + n <= len -> 0 <= start -> start + n <= blen src -> fits len (OSlice i src start n) len
  | fit_allocate : forall len n, 0 <= n -> fits len (OAllocate n) (len + n)
  | fit_struct : forall len pos ds ps, 0 <= pos -> pos + 8 <= len -> 0 <= ds < 2 ^ 16 -> 0 <= ps < 2 ^ 15 ->
      fits len (OStruct pos ds ps) (len + 8 * (ds + ps))
  | fit_list : forall len pos tag count body,
      0 <= pos -> pos + 8 <= len -> 0 <= tag < 8 -> 0 <= count < 2 ^ 28 -> 0 <= body ->
      fits len (OList pos tag count body) (len + 8 * ((body + 7) / 8))
  | fit_text : forall len pos s, 0 <= pos -> pos + 8 <= len -> blen s + 1 < 2 ^ 28 ->
      fits len (OText pos (Some s)) (len + 8 * ((blen s + 1 + 7) / 8))
  | fit_data : forall len pos s, 0 <= pos -> pos + 8 <= len -> blen s < 2 ^ 28 ->
      fits len (OData pos (Some s)) (len + 8 * ((blen s + 7) / 8))
  | fit_text_none : forall len pos, 0 <= pos -> pos + 8 <= len -> fits len (OText pos None) len
  | fit_data_none : forall len pos, 0 <= pos -> pos + 8 <= len -> fits len (OData pos None) len
  | fit_copy : forall len src p src_pos dst_pos v,
      den src p src_pos v -> p <> 0 -> (p_kind p = 2 -> word_at src src_pos = Some p) -> limv v ->
      (2 * vdepth v <= fuel)%nat ->
      0 <= dst_pos -> dst_pos mod 8 = 0 -> dst_pos + 8 <= len -> len mod 8 = 0 -> len + blen (content v) <= 2 ^ 32 ->
      blen (sbuf src) < 2 ^ 60 ->
      fits len (OCopy src p src_pos dst_pos) (len + blen (content v)).

  Inductive all_fit : Z -> list bop -> Prop :=
  | af_nil : forall len, all_fit len []
  | af_cons : forall len o len' r, fits len o len' -> all_fit len' r -> all_fit len (o :: r).
End run.
