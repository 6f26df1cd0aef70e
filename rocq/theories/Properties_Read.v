(** Property theorems C27, C28, C35, C37, C43, C44: reading.

    Reading guide. [query] is a finite chain of accesses (scalar field, bit,
    text/data, struct field, list field, list item, length); [run_s q o] runs
    it on a capnpy object through the model of the getters, [vrun_s q d vs] is
    its independent meaning on the value with data section [d] and pointers
    [vs] (Query.v; [None] when the query's types do not fit the data). *)
From Verif Require Import Base Spec Ptr Segment Builder Copy Endof Enc Struct Message List Query EncDen
  EndofFacts AlignFacts AnyPtr ReadFacts ListFacts EqFacts EqPy ReadFinal CopyFinal Samples.

(** C27. Fields beyond the sections the object really has. *)
Theorem C27_beyond_data : forall o off f mask, 8 * o_ds o <= off ->
  o_read_primitive o off f = Ok 0 /\ o_read_bit o off mask = Ok false.
Proof. exact beyond_data. Qed.
Print Assumptions C27_beyond_data.
Theorem C27_beyond_pointers : forall o k t dflt add, o_ps o <= k ->
  o_read_struct o (8 * k) = Ok None /\ o_read_list o (8 * k) t = Ok None /\ o_read_data o (8 * k) dflt add = Ok dflt.
Proof. exact beyond_ptrs. Qed.
Print Assumptions C27_beyond_pointers.
(** Two objects whose values differ only by trailing zero bytes and trailing
    null pointers of their structs, at any depth ([strip] removes these). *)
Theorem C27_padding : forall o1 d1 vs1 o2 d2 vs2 q r,
  obj_den o1 d1 vs1 -> obj_den o2 d2 vs2 -> strip (VStruct d1 vs1) = strip (VStruct d2 vs2) ->
  vrun_s q d1 vs1 = Some r -> run_s q o1 = r /\ run_s q o2 = r.
Proof. exact run_padding. Qed.
Print Assumptions C27_padding.
(** An object with larger sections (arbitrary extra content), read through
    the fields a smaller schema knows. *)
Theorem C27_larger : forall q o1 o2 d vs d' vs' r,
  obj_den o1 d vs -> obj_den o2 (d ++ d') (vs ++ vs') -> known q (blen d) (blen vs) ->
  vrun_s q d vs = Some r -> run_s q o1 = r /\ run_s q o2 = r.
Proof. exact run_known. Qed.
Print Assumptions C27_larger.
Example C27_ex : (* reading the text, the child's number and a missing field of the sample *)
  vrun_s (QBytes 0 None (-1)) sample1_data sample1_ptrs = Some (Ok (ABytes (Some abc))) /\
  vrun_s (QStruct 1 (QPrim 0 FI)) sample1_data sample1_ptrs = Some (Ok (AInt 7)) /\
  vrun_s (QStruct 1 (QPrim 8 FI)) sample1_data sample1_ptrs = Some (Ok (AInt 0)) /\
  vrun_s (QStruct 2 (QPrim 8 FI)) sample1_data sample1_ptrs = Some (Ok ANone) /\
  strip (VStruct sample1_data sample1_ptrs)
   = strip (VStruct (sample1_data ++ zeros 16) (sample1_ptrs ++ [VNull; VNull])).
Proof. vm_compute. auto. Qed.

(** C28 *)
Theorem C28_same_value : forall o1 o2 d vs q r,
  obj_den o1 d vs -> obj_den o2 d vs -> vrun_s q d vs = Some r -> run_s q o1 = r /\ run_s q o2 = r.
Proof. exact run_same. Qed.
Print Assumptions C28_same_value.
(** ... and an object has only one value. *)
Theorem C28_value_unique : forall s,
  (forall p pos v, den s p pos v -> forall v', den s p pos v' -> v = v') /\
  (forall pos n vs, den_ptrs s pos n vs -> forall vs', den_ptrs s pos n vs' -> vs = vs') /\
  (forall pos ds ps n items, den_items s pos ds ps n items -> forall items', den_items s pos ds ps n items' -> items = items').
Proof. exact den_fun_all. Qed.
Print Assumptions C28_value_unique.
Example C28_ex : exists o1 o2, (* one segment, three segments *)
  loads (frame_with [] [sample1]) = Ok (Some o1) /\ loads (frame_with [] sample3) = Ok (Some o2) /\
  obj_den o1 sample1_data sample1_ptrs /\ obj_den o2 sample1_data sample1_ptrs.
Proof.
  destruct sample1_loads as (o1 & L1 & O1 & _). destruct sample3_loads as (o2 & L2 & O2 & _). exists o1, o2. auto.
Qed.

(** C35. [items_are l xs]: [l] has [length xs] items and reading position i
    gives the i-th of [xs]; C35_items: the lists of well-formed objects are so. *)
Theorem C35_items : forall l v ys, StructFacts.lobj_den l v -> blen ys = vcount v ->
  (forall i y, nth_error ys i = Some y ->
     v_item (l_it l) v (Z.of_nat i) = Some y /\ match y with VIBytes (Err _) => False | _ => True end) ->
  exists xs, items_are l xs /\ Forall2 (StructFacts.item_den (l_seg l) (l_it l)) xs ys.
Proof. exact items_value. Qed.
Print Assumptions C35_items.
Theorem C35_index : forall l xs i, items_are l xs ->
  l_getitem l i = match v_index (blen xs) i with
                  | Some j => Ok (nth (Z.to_nat j) xs INone)
                  | None => Err IndexError
                  end.
Proof. exact getitem_list. Qed.
Print Assumptions C35_index.
(** l[start:stop]; [py_slice] is Python's slicing of a list (Base.v) *)
Theorem C35_slice : forall l xs start stop, items_are l xs ->
  l_getslice l start stop None =
  Ok (py_slice xs (match start with Some a => a | None => 0 end) (match stop with Some b => b | None => blen xs end)).
Proof. exact getslice_plain. Qed.
Print Assumptions C35_slice.
(** l[start:stop:step]: the items at the positions CPython's slice.indices
    gives, all of which exist *)
Theorem C35_slice_step : forall l xs start stop step, items_are l xs ->
  match slice_indices start stop step (blen xs) with
  | Err e => l_getslice l start stop step = Err e
  | Ok (a, b, c) =>
      l_getslice l start stop step = Ok (map (fun i => nth (Z.to_nat i) xs INone) (py_range a b c)) /\
      Forall (fun i => 0 <= i < blen xs) (py_range a b c)
  end.
Proof. exact getslice_list. Qed.
Print Assumptions C35_slice_step.
Theorem C35_reverse : forall l xs, items_are l xs -> l_getslice l None None (Some (-1)) = Ok (rev xs).
Proof. exact getslice_rev. Qed.
Print Assumptions C35_reverse.
Theorem C35_iter : forall l xs fuel, items_are l xs -> (length xs < fuel)%nat -> l_iter fuel l 0 = Ok xs.
Proof. exact iter_list. Qed.
Print Assumptions C35_iter.
Example C35_ex :
  (do l <- list0 (msg1 (le_enc 8 (w_list 0 4 3) ++ le_enc 4 10 ++ le_enc 4 20 ++ le_enc 8 30)) (ITPrim Fi);
   do a <- l_getitem l (-1); do b <- l_getslice l (Some 1) None None; do c <- l_iter 4 l 0; Ok (a, b, c))
  = Ok (IInt 30, [IInt 20; IInt 30], [IInt 10; IInt 20; IInt 30]).
Proof. vm_compute. reflexivity. Qed.
(** On a truncated list the IndexError of the failing read ends the loop: the
    iteration silently gives fewer than len(l) items. *)
Theorem C35_malformed_refuted :
  (do l <- list0 short_list (ITPrim Fq); do xs <- l_iter 200 l 0; Ok (l_count l, xs))
  = Ok (100, [IInt 7; IInt 8]).
Proof. exact short_iter. Qed.
Print Assumptions C35_malformed_refuted.

(** C37. [fits]: the data has the element size the item type announces. An
    answer True is right if both lists are laid out compactly (end <> -1). *)
Theorem C37_true_means_equal : forall a b va vb fuel si ea eb,
  StructFacts.lobj_den a va -> StructFacts.lobj_den b vb -> fits (l_it a) va -> fits (l_it b) vb -> noslack va ->
  l_off a mod 8 = 0 -> slen (l_seg a) mod 8 = 0 -> l_off b mod 8 = 0 -> slen (l_seg b) mod 8 = 0 ->
  (vdepth va <= fuel)%nat -> (vdepth vb <= fuel)%nat ->
  l_get_end fuel a = Ok ea -> ea <> -1 -> l_get_end fuel b = Ok eb -> eb <> -1 ->
  l_equals fuel si a b = Ok true -> va = vb.
Proof. exact equals_sound. Qed.
Print Assumptions C37_true_means_equal.
(** Equal lists compare equal when both are laid out canonically, as
    compact() and constructors do. *)
Theorem C37_equal_means_true : forall a b v fuel,
  StructFacts.lobj_den a v -> StructFacts.lobj_den b v -> l_it b = l_it a -> fits (l_it a) v -> packed v -> limv v ->
  at_ (l_seg a) (l_off a) (content v) -> at_ (l_seg b) (l_off b) (content v) ->
  l_off a mod 8 = 0 -> l_off b mod 8 = 0 -> blen (content v) <= 2 ^ 32 -> (vdepth v <= fuel)%nat ->
  l_equals fuel true a b = Ok true.
Proof. exact equals_complete. Qed.
Print Assumptions C37_equal_means_true.
(** Both directions at once: two lists laid out canonically, one after the
    other or in different messages, whatever they contain *)
Theorem C37_canonical_iff : forall a b va vb fuel,
  StructFacts.lobj_den a va -> StructFacts.lobj_den b vb -> l_it b = l_it a -> fits (l_it a) va -> fits (l_it b) vb ->
  packed va -> packed vb -> limv va -> limv vb ->
  at_ (l_seg a) (l_off a) (content va) -> at_ (l_seg b) (l_off b) (content vb) ->
  l_off a mod 8 = 0 -> l_off b mod 8 = 0 -> slen (l_seg a) mod 8 = 0 -> slen (l_seg b) mod 8 = 0 ->
  blen (content va) <= 2 ^ 32 -> blen (content vb) <= 2 ^ 32 ->
  (vdepth va <= fuel)%nat -> (vdepth vb <= fuel)%nat ->
  (l_equals fuel true a b = Ok true /\ va = vb) \/ (l_equals fuel true a b = Ok false /\ va <> vb).
Proof. exact equals_iff. Qed.
Print Assumptions C37_canonical_iff.
(** Comparison with a Python list is right whatever the layout. [as_py t v] is
    the Python list of the items (numbers, bytes, None, lists, at any depth). *)
Theorem C37_python_list : forall l v ps, StructFacts.lobj_den l v -> as_py (l_it l) v = Some ps ->
  exists n0, forall n, (n0 <= n)%nat -> forall ys,
    exists b, py_equals (l_it l) n l ys = Ok b /\ (b = true <-> Forall2 pyeq ps ys).
Proof. intros l v ps L A. exact (py_equals_spec (l_it l) l v ps L eq_refl A). Qed.
Print Assumptions C37_python_list.
(** [pyeq] is equality as long as there are no floats *)
Theorem C37_no_floats : forall xs ys, Forall no_floats xs -> Forall no_floats ys -> (Forall2 pyeq xs ys <-> xs = ys).
Proof. exact pyeq_plain. Qed.
Print Assumptions C37_no_floats.
(** Two lists of floats are compared by their bytes: [nan] is equal to another
    [nan], and [0.0] is different from [-0.0], although both are equal to the
    Python list [0.0] *)
Definition float_list (b : Z) := msg1 (le_enc 8 (w_list 0 5 1) ++ le_enc 8 b).
Theorem C37_floats_refuted :
  (do a <- list0 (float_list 0x7ff8000000000000) (ITFloat true); do b <- list0 (float_list 0x7ff8000000000000) (ITFloat true);
   do e <- l_equals 9 true a b; do f <- py_equals (ITFloat true) 9 a [YFloat 0x7ff8000000000000]; Ok (e, f)) = Ok (true, false) /\
  (do a <- list0 (float_list 0) (ITFloat true); do b <- list0 (float_list 0x8000000000000000) (ITFloat true);
   do e <- l_equals 9 true a b; do f <- py_equals (ITFloat true) 9 a [YFloat 0];
   do g <- py_equals (ITFloat true) 9 b [YNum 0]; Ok (e, f, g)) = Ok (false, true, true).
Proof. split; vm_compute; reflexivity. Qed.
Print Assumptions C37_floats_refuted.
(** [b"bbbbbbb\0", b"ccc\0"] in a message that is not compact *)
Example C37_python_ex :
  (do a <- list0 (two_data 0) (ITText 0);
   do xs <- l_iter 9 a 0;
   do e <- py_equals (ITText 0) 9 a (map (fun x => match x with IBytes (Some b) => YBytes b | _ => YNone end) xs);
   do f <- py_equals (ITText 0) 9 a [YBytes []; YBytes []]; Ok (e, f)) = Ok (true, false).
Proof. vm_compute. reflexivity. Qed.
(** lists of structs cannot be compared *)
Theorem C37_structs_refused : forall fuel si a b ds ps n ys, l_it a = ITStruct ds ps ->
  l_equals fuel si a b = Err TypeError /\ py_equals (l_it a) n a ys = Err TypeError.
Proof. intros fuel si a b ds ps n ys E. unfold l_equals. rewrite E. split; reflexivity. Qed.
Print Assumptions C37_structs_refused.
Example C37_ex :
  (do a <- list0 pad_zero (ITPrim Fb); do b <- list0 pad_zero (ITPrim Fb);
   do x <- l_get_end 1 a; do e <- l_equals 1 true a b; Ok (l_off a mod 8, slen (l_seg a) mod 8, x, e)) = Ok (0, 0, 24, true).
Proof. vm_compute. reflexivity. Qed.
(** Same items, answer False, because of the bytes after the last item. *)
Theorem C37_padding_refuted :
  (do a <- list0 pad_zero (ITPrim Fb); do b <- list0 pad_junk (ITPrim Fb);
   do xa <- l_iter 9 a 0; do xb <- l_iter 9 b 0; do e <- l_equals 9 true a b; Ok (xa, xb, e))
  = Ok ([IInt 5], [IInt 5], false).
Proof. exact padding_refuted. Qed.
Print Assumptions C37_padding_refuted.
(** Different first items, answer True: for a list that is not compact the
    slice [start:-1] is compared. *)
Theorem C37_non_compact_refuted :
  (do a <- list0 (two_data 0) (ITText 0); do b <- list0 (two_data 1) (ITText 0);
   do xa <- l_getitem a 0; do xb <- l_getitem b 0; do e <- l_equals 9 true a b; Ok (xa, xb, e))
  = Ok (IBytes (Some [x62; x62; x62; x62; x62; x62; x62; x00]),
        IBytes (Some [x62; x62; x62; x62; x62; x62; x62; x01]), true).
Proof. exact non_compact_refuted. Qed.
Print Assumptions C37_non_compact_refuted.

(** C43 *)
Theorem C43_pickle : forall o d vs, obj_den o d vs ->
  o_unreduce (o_reduce o) = Ok o /\ o_raw_loads (o_raw_dumps o) = Ok o.
Proof. exact pickle_roundtrip. Qed.
Print Assumptions C43_pickle.
(** the same for every object got from any message, well-formed or not *)
Theorem C43_reachable : forall r o, reach_obj r o ->
  o_unreduce (o_reduce o) = Ok o /\ o_raw_loads (o_raw_dumps o) = Ok o.
Proof.
  intros r o R. destruct (reach_init r o R) as (s & off & ds & ps & I). exact (init_roundtrip s off ds ps o I).
Qed.
Print Assumptions C43_reachable.
Example C43_ex : exists o, loads (frame_with [] sample3) = Ok (Some o) /\ obj_den o sample1_data sample1_ptrs.
Proof. destruct sample3_loads as (o & L & O & _). exists o. auto. Qed.

(** C44. For pointers that are not far pointers. *)
Theorem C44_kind : forall o d vs k, obj_den o d vs -> 0 <= k ->
  (forall p, 0 <= k < o_ps o -> word_at (o_seg o) (o_ptrs o + 8 * k) = Some p -> p_kind p <> 2) ->
  ap_is_struct o (8 * k) = Ok (match v_ptr vs k with VStruct _ _ | VNull => true | _ => false end) /\
  ap_is_list o (8 * k) = Ok (match v_ptr vs k with VList _ _ _ | VPtrs _ | VComp _ _ _ _ => true | _ => false end) /\
  ap_is_text o (8 * k) = Ok (match v_ptr vs k with VList t _ _ => t =? 2 | _ => false end).
Proof. exact ap_kind. Qed.
Print Assumptions C44_kind.
Example C44_ex :
  (do x <- loads (frame_with [] [sample1]);
   match x with None => Err ValueError | Some o =>
     do a <- ap_is_text o 0; do b <- ap_is_struct o 8; do c <- ap_as_text_bytes o 0; Ok (a, b, c) end)
  = Ok (true, true, Some abc).
Proof. vm_compute. reflexivity. Qed.
(** For far pointers: the three predicates say no, whatever the target. *)
Theorem C44_far_pointers : forall o d vs k p, obj_den o d vs -> 0 <= k < o_ps o ->
  word_at (o_seg o) (o_ptrs o + 8 * k) = Some p -> p_kind p = 2 ->
  ap_is_struct o (8 * k) = Ok false /\ ap_is_list o (8 * k) = Ok false /\ ap_is_text o (8 * k) = Ok false.
Proof. exact ap_far. Qed.
Print Assumptions C44_far_pointers.
(** The accessors, for all pointers: the object for the right kind, None for
    null, AssertionError for a wrong kind; the text is the data without the
    final NUL; dumps() is the one of the struct. *)
Theorem C44_accessors : forall o d vs k, obj_den o d vs -> 0 <= k ->
  match v_ptr vs k with
  | VNull => ap_as_struct o (8 * k) = Ok None /\ ap_as_data o (8 * k) = Ok None /\ ap_as_text_bytes o (8 * k) = Ok None /\
             (forall t, ap_as_list o (8 * k) t = Ok None) /\
             (forall fuel fp, ap_dumps fuel o (8 * k) fp = Err AttributeError)
  | VStruct d' vs' =>
      (exists o', ap_as_struct o (8 * k) = Ok (Some o') /\ obj_den o' d' vs' /\
        (forall fuel fp, ap_dumps fuel o (8 * k) fp = dumps fuel o' fp)) /\
      (forall t, ap_as_list o (8 * k) t = Err AssertionError) /\
      ap_as_data o (8 * k) = Err AssertionError /\ ap_as_text_bytes o (8 * k) = Err AssertionError
  | v => ap_as_struct o (8 * k) = Err AssertionError /\
         (forall fuel fp, ap_dumps fuel o (8 * k) fp = Err AssertionError) /\
         (forall t, exists l, ap_as_list o (8 * k) t = Ok (Some l) /\ StructFacts.lobj_den l v /\ l_it l = t) /\
         match v with
         | VList t c b =>
             if t =? 2
             then ap_as_data o (8 * k) = Ok (Some b) /\
                  (0 < c -> ap_as_text_bytes o (8 * k) = Ok (Some (removelast b)))
             else ap_as_data o (8 * k) = Err AssertionError /\ ap_as_text_bytes o (8 * k) = Err AssertionError
         | _ => ap_as_data o (8 * k) = Err AssertionError /\ ap_as_text_bytes o (8 * k) = Err AssertionError
         end
  end.
Proof. exact ap_accessors. Qed.
Print Assumptions C44_accessors.
(** Behind a far pointer all three answer False although as_text() works. *)
Theorem C44_far_refuted :
  exists o, loads (frame_with [] sample3) = Ok (Some o) /\ obj_den o sample1_data sample1_ptrs /\
    ap_is_list o 0 = Ok false /\ ap_is_text o 0 = Ok false /\ ap_is_struct o 0 = Ok false /\
    ap_as_text_bytes o 0 = Ok (Some abc).
Proof. exact far_anypointer. Qed.
Print Assumptions C44_far_refuted.
Theorem C44_null_refuted :
  exists o, loads (msg1 (le_enc 8 0)) = Ok (Some o) /\ ap_is_struct o 0 = Ok true /\ ap_as_struct o 0 = Ok None.
Proof. exact null_anypointer. Qed.
Print Assumptions C44_null_refuted.
