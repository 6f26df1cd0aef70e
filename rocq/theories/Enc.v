(** The canonical encoding of a value: depth-first, children in order, no
    gaps, offset -1 for empty structs. Pointers are relative, so the encoding
    does not depend on where it is placed. Part of the specification (it does
    not refer to the model of the code). *)
From Verif Require Import Base Spec.

(** Every value in the tree, the root included, satisfies [P]. *)
Fixpoint vall (P : value -> Prop) (v : value) : Prop :=
  P v /\
  match v with
  | VNull | VList _ _ _ => True
  | VStruct _ vs | VPtrs vs =>
      (fix all l := match l with [] => True | x :: r => vall P x /\ all r end) vs
  | VComp _ _ items _ =>
      (fix alli l :=
         match l with
         | [] => True
         | (_, vs) :: r =>
             (fix all l := match l with [] => True | x :: r => vall P x /\ all r end) vs
             /\ alli r
         end) items
  end.

(** Sizes fit in the fields of the wire format. *)
Definition wf1 (v : value) : Prop :=
  match v with
  | VNull => True
  | VStruct d vs => blen d mod 8 = 0 /\ blen d < 8 * 2 ^ 16 /\ blen vs < 2 ^ 16
  | VList t c b => 0 <= t <= 5 /\ 0 <= c < 2 ^ 29 /\ blen b = list_bytes t c
  | VPtrs vs => blen vs < 2 ^ 29
  | VComp ds ps items slack =>
      0 <= ds < 2 ^ 16 /\ 0 <= ps < 2 ^ 16 /\
      Forall (fun it => blen (fst it) = 8 * ds /\ blen (snd it) = ps) items /\
      blen items < 2 ^ 29 /\ blen slack mod 8 = 0 /\
      (ds + ps) * blen items + blen slack / 8 < 2 ^ 29
  end.
Definition wfv := vall wf1.

(** Limits of the pure-Python builder: it writes pointers with
    struct.pack_into('q'), which refuses words >= 2^63. *)
Definition lim1 (v : value) : Prop :=
  match v with
  | VNull => True
  | VStruct _ vs => blen vs < 2 ^ 15
  | VList _ c _ => c < 2 ^ 28
  | VPtrs vs => blen vs < 2 ^ 28
  | VComp ds ps items slack => (ds + ps) * blen items + blen slack / 8 < 2 ^ 28
  end.
Definition limv := vall lim1.

(** The pointer word for [v] when its content starts [off] words after the
    end of the pointer. *)
Definition ptr_word (v : value) (off : Z) : Z :=
  match v with
  | VNull => 0
  | VStruct d vs =>
      if blen d + blen vs =? 0 then w_struct (-1) 0 0
      else w_struct off (blen d / 8) (blen vs)
  | VList t c _ => w_list off t c
  | VPtrs vs => w_list off 6 (blen vs)
  | VComp ds ps items slack => w_list off 7 ((ds + ps) * blen items + blen slack / 8)
  end.

(** Zero padding up to a word boundary. *)
Definition pad8 (b : bytes) : bytes := b ++ zeros ((- blen b) mod 8).

(** Consecutive pointers to values whose contents follow one another; [off]
    is the offset of the first. *)
Fixpoint ptr_words (vcs : list (value * bytes)) (off : Z) : bytes :=
  match vcs with
  | [] => []
  | (v, c) :: r => le_enc 8 (ptr_word v off) ++ ptr_words r (off - 1 + blen c / 8)
  end.

Definition contents (vcs : list (value * bytes)) : bytes := concat (map snd vcs).

(** Struct bodies one after the other; [rem] is the distance in words from
    the start of the first one to the place where contents go. *)
Fixpoint item_words (ds ps : Z) (ics : list (bytes * list (value * bytes))) (rem : Z) : bytes :=
  match ics with
  | [] => []
  | (d, vcs) :: r =>
      d ++ ptr_words vcs (rem - ds - 1) ++
      item_words ds ps r (rem - (ds + ps) + blen (contents vcs) / 8)
  end.

Definition icontents (ics : list (bytes * list (value * bytes))) : bytes :=
  concat (map (fun it => contents (snd it)) ics).

(** Everything [v] needs besides its pointer. *)
Fixpoint content (v : value) : bytes :=
  match v with
  | VNull => []
  | VStruct d vs =>
      let vcs := map (fun x => (x, content x)) vs in
      d ++ ptr_words vcs (blen vs - 1) ++ contents vcs
  | VList _ _ b => pad8 b
  | VPtrs vs =>
      let vcs := map (fun x => (x, content x)) vs in
      ptr_words vcs (blen vs - 1) ++ contents vcs
  | VComp ds ps items slack =>
      let ics := map (fun it => (fst it, map (fun x => (x, content x)) (snd it))) items in
      le_enc 8 (w_struct (blen items) ds ps) ++
      item_words ds ps ics ((ds + ps) * blen items + blen slack / 8) ++
      slack ++ icontents ics
  end.

(** Nesting depth. *)
Fixpoint vdepth (v : value) : nat :=
  match v with
  | VNull | VList _ _ _ => 1
  | VStruct _ vs | VPtrs vs => S (list_max (map vdepth vs))
  | VComp _ _ items _ => S (list_max (map (fun it => list_max (map vdepth (snd it))) items))
  end.
