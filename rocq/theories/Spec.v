(** Independent specification: the Cap'n Proto wire format as arithmetic on
    64-bit words, the schema-less value of an object, far pointers, framing.
    Nothing here refers to the model of capnpy's code. *)
From Verif Require Import Base.

(** ** Pointer words

    A pointer is a 64-bit word [p]; all the accessors below give the same
    answer on its signed and on its unsigned reading, because Coq's [/] and
    [mod] are floor division. The layout (from the Cap'n Proto encoding spec):
    bits 0-1 kind; struct: bits 2-31 signed offset, 32-47 data words, 48-63
    pointer words; list: bits 2-31 signed offset, 32-34 element size, 35-63
    count; far: bit 2 landing pad, bits 3-31 offset, 32-63 segment. *)

Definition p_kind (p : Z) : Z := p mod 4.
Definition p_off (p : Z) : Z := to_signed 30 ((p / 4) mod 2 ^ 30).
Definition p_dsize (p : Z) : Z := (p / 2 ^ 32) mod 2 ^ 16.
Definition p_psize (p : Z) : Z := (p / 2 ^ 48) mod 2 ^ 16.
Definition p_ltag (p : Z) : Z := (p / 2 ^ 32) mod 8.
Definition p_lcount (p : Z) : Z := (p / 2 ^ 35) mod 2 ^ 29.
Definition p_farpad (p : Z) : Z := (p / 4) mod 2.
Definition p_faroff (p : Z) : Z := (p / 8) mod 2 ^ 29.
Definition p_farseg (p : Z) : Z := (p / 2 ^ 32) mod 2 ^ 32.

(** Byte position of the target of a pointer located at byte [pos]: offsets
    are in words, from the end of the pointer. *)
Definition p_target (p pos : Z) : Z := pos + 8 + 8 * p_off p.

(** The unsigned words with given fields (all fields in range). *)
Definition w_struct (off ds ps : Z) : Z :=
  4 * (off mod 2 ^ 30) + 2 ^ 32 * ds + 2 ^ 48 * ps.
Definition w_list (off tag count : Z) : Z :=
  1 + 4 * (off mod 2 ^ 30) + 2 ^ 32 * tag + 2 ^ 35 * count.
Definition w_far (pad off seg : Z) : Z :=
  2 + 4 * pad + 8 * off + 2 ^ 32 * seg.

(** ** Memory: a flat buffer, with the table of the segment starts when the
    message has several segments *)

Record seg := mkseg { sbuf : bytes; soffs : option (list Z) }.

Definition slen (s : seg) : Z := blen (sbuf s).

(** The (signed) word at byte [pos], when it is inside the buffer. *)
Definition word_at (s : seg) (pos : Z) : option Z :=
  if (0 <=? pos) && (pos + 8 <=? slen s)
  then Some (to_signed 64 (le_dec (sub (sbuf s) pos 8)))
  else None.

(** The [n] bytes at [pos], when they are inside the buffer. *)
Definition bytes_at (s : seg) (pos n : Z) : option bytes :=
  if (0 <=? pos) && (0 <=? n) && (pos + n <=? slen s)
  then Some (sub (sbuf s) pos n)
  else None.

(** Start of segment number [k]. *)
Definition seg_start (s : seg) (k : Z) : option Z :=
  match soffs s with
  | None => None
  | Some t => if 0 <=? k then nth_error t (Z.to_nat k) else None
  end.

(** Where a far pointer [p] leads: position and value of the ordinary
    pointer that describes the object (for a two-word landing pad, the tag
    word, positioned just before the content). *)
Inductive far_to (s : seg) (p : Z) : Z -> Z -> Prop :=
| far_one : forall st q,
    p_farpad p = 0 ->
    seg_start s (p_farseg p) = Some st ->
    word_at s (st + 8 * p_faroff p) = Some q ->
    far_to s p (st + 8 * p_faroff p) q
| far_two : forall st q tag st2,
    p_farpad p = 1 ->
    seg_start s (p_farseg p) = Some st ->
    word_at s (st + 8 * p_faroff p) = Some q ->
    word_at s (st + 8 * p_faroff p + 8) = Some tag ->
    p_kind q = 2 -> p_farpad q = 0 -> p_off tag = 0 ->
    seg_start s (p_farseg q) = Some st2 ->
    far_to s p (st2 + 8 * p_faroff q - 8) tag.

(** ** Values: what a pointer means, without a schema *)

Inductive value :=
| VNull
| VStruct (data : bytes) (ptrs : list value)
| VList (tag count : Z) (body : bytes)             (* element sizes 0..5 *)
| VPtrs (items : list value)                       (* element size 6 *)
| VComp (ds ps : Z) (items : list (bytes * list value)) (slack : bytes). (* 7 *)

(** Bytes taken by [count] elements of size tag [tag] (0..5). *)
Definition list_bytes (tag count : Z) : Z :=
  if tag =? 0 then 0
  else if tag =? 1 then (count + 7) / 8
  else if tag =? 2 then count
  else if tag =? 3 then 2 * count
  else if tag =? 4 then 4 * count
  else 8 * count.

(** [den s p pos v]: the pointer word [p], sitting at byte [pos] of [s],
    denotes the value [v]; everything it reaches is inside the buffer. *)
Inductive den (s : seg) : Z -> Z -> value -> Prop :=
| den_null : forall pos, den s 0 pos VNull
| den_struct : forall p pos data vs,
    p <> 0 -> p_kind p = 0 ->
    bytes_at s (p_target p pos) (8 * p_dsize p) = Some data ->
    den_ptrs s (p_target p pos + 8 * p_dsize p) (Z.to_nat (p_psize p)) vs ->
    den s p pos (VStruct data vs)
| den_list : forall p pos body,
    p_kind p = 1 -> p_ltag p <= 5 ->
    bytes_at s (p_target p pos) (list_bytes (p_ltag p) (p_lcount p)) = Some body ->
    den s p pos (VList (p_ltag p) (p_lcount p) body)
| den_plist : forall p pos vs,
    p_kind p = 1 -> p_ltag p = 6 ->
    0 <= p_target p pos -> p_target p pos + 8 * p_lcount p <= slen s ->
    den_ptrs s (p_target p pos) (Z.to_nat (p_lcount p)) vs ->
    den s p pos (VPtrs vs)
| den_clist : forall p pos tag items slack,
    p_kind p = 1 -> p_ltag p = 7 ->
    word_at s (p_target p pos) = Some tag ->
    p_kind tag = 0 -> 0 <= p_off tag ->
    den_items s (p_target p pos + 8) (p_dsize tag) (p_psize tag)
              (Z.to_nat (p_off tag)) items ->
    bytes_at s (p_target p pos + 8 + 8 * ((p_dsize tag + p_psize tag) * p_off tag))
               (8 * (p_lcount p - (p_dsize tag + p_psize tag) * p_off tag)) = Some slack ->
    den s p pos (VComp (p_dsize tag) (p_psize tag) items slack)
| den_far : forall p pos pos' p' v,
    p_kind p = 2 -> far_to s p pos' p' -> p_kind p' <> 2 -> p' <> 0 ->
    den s p' pos' v ->
    den s p pos v
(** [n] consecutive pointers from byte [pos] *)
with den_ptrs (s : seg) : Z -> nat -> list value -> Prop :=
| dp_nil : forall pos, 0 <= pos <= slen s -> den_ptrs s pos 0 []
| dp_cons : forall pos n p v vs,
    word_at s pos = Some p ->
    den s p pos v ->
    den_ptrs s (pos + 8) n vs ->
    den_ptrs s pos (S n) (v :: vs)
(** [n] consecutive struct bodies from byte [pos] *)
with den_items (s : seg) : Z -> Z -> Z -> nat -> list (bytes * list value) -> Prop :=
| di_nil : forall pos ds ps, den_items s pos ds ps 0 []
| di_cons : forall pos ds ps n data vs items,
    bytes_at s pos (8 * ds) = Some data ->
    den_ptrs s (pos + 8 * ds) (Z.to_nat ps) vs ->
    den_items s (pos + 8 * (ds + ps)) ds ps n items ->
    den_items s pos ds ps (S n) ((data, vs) :: items).

(** A struct body at [pos] with the given section sizes (what a struct object
    designates: no pointer involved). *)
Definition den_body (s : seg) (pos ds ps : Z) (v : value) : Prop :=
  exists data vs, v = VStruct data vs /\
    bytes_at s pos (8 * ds) = Some data /\
    den_ptrs s (pos + 8 * ds) (Z.to_nat ps) vs.

(** ** The segmented address space *)

Definition prefix_sum (l : list bytes) (k : nat) : Z :=
  blen (concat (firstn k l)).

(** The flat representation of a list of segments. *)
Definition flat (segs : list bytes) : seg :=
  {| sbuf := concat segs;
     soffs := Some (map (prefix_sum segs) (seq 0 (length segs))) |}.

(** The word at byte [i] of segment [k]. *)
Definition seg_word (segs : list bytes) (k i : Z) : option Z :=
  if k <? 0 then None
  else match nth_error segs (Z.to_nat k) with
       | None => None
       | Some b => word_at {| sbuf := b; soffs := None |} i
       end.

(** ** Stream framing *)

(** Number of segments minus one, size in words of each, padding to a word
    boundary, then the segments. *)
Definition frame (segs : list bytes) : bytes :=
  le_enc 4 (blen segs - 1) ++
  concat (map (fun b => le_enc 4 (blen b / 8)) segs) ++
  (if Z.even (blen segs) then zeros 4 else []) ++
  concat segs.

(** Every segment is a whole number of words, sizes and counts fit in 32 bits. *)
Definition frameable (segs : list bytes) : Prop :=
  segs <> [] /\ blen segs <= 2 ^ 32 /\
  Forall (fun b => blen b mod 8 = 0 /\ blen b / 8 < 2 ^ 32) segs.

(** The same with arbitrary padding bytes (readers ignore them). *)
Definition frame_with (pad : bytes) (segs : list bytes) : bytes :=
  le_enc 4 (blen segs - 1) ++
  concat (map (fun b => le_enc 4 (blen b / 8)) segs) ++
  pad ++
  concat segs.
Definition pad_ok (pad : bytes) (segs : list bytes) : Prop :=
  blen pad = if Z.even (blen segs) then 4 else 0.

(** The memory of a loaded message: one flat buffer, with the table of
    segment starts only when there are several segments. *)
Definition mem_of (segs : list bytes) : seg :=
  match segs with
  | [b] => {| sbuf := b; soffs := None |}
  | _ => flat segs
  end.
