(** Property theorems C64: reading a list through another element kind than
    the one it was written with.

    Cap'n Proto's evolution rules let a schema replace List(T) by a list of
    structs whose first field is a T; readers then must accept both layouts.
    The theorems say what the getters and items of a capnpy list do in each
    direction, for the list in pointer slot [k] of any well-formed object.
    [o_read_list o (8*k) t] is the field's getter, [l_getitem] is [lst[i]]. *)
From Verif Require Import Base Spec BaseFacts Ptr PtrFacts Segment SegmentFacts Struct List Query
  Enc EncFacts StructFacts Message Samples CopyFinal.
From Coq Require Import ZifyBool.
Ltac Zify.zify_post_hook ::= Z.div_mod_to_equations.

Lemma plain_tag l v : lobj_den l v ->
  match v with
  | VList _ _ _ | VPtrs _ => l_tag l = -1 /\ 0 <= l_off l
  | VComp ds ps items _ =>
      p_kind (l_tag l) = 0 /\ p_off (l_tag l) = blen items
  | _ => True
  end.
Proof.
  intros [(p & pos & D & K & I)|[-> C]]; [|exact Logic.I].
  unfold list_init, LIST_SIZE_COMPOSITE in I.
  inversion D; subst; try (cbn in K; discriminate); try congruence; try exact Logic.I.
  - destruct (Z.eqb_spec (p_ltag p) 7) as [T|T]; [lia|]. apply ok_inj in I. rewrite <- I in *.
    cbn [l_tag l_off l_seg] in *. destruct (bytes_at_some _ _ _ _ H1) as (B1 & _). auto.
  - match goal with H : p_ltag p = 6 |- _ => rewrite H in I end. cbn [Z.eqb Pos.eqb] in I.
    apply ok_inj in I. rewrite <- I in *. cbn [l_tag l_off]. auto.
  - match goal with H : p_ltag p = 7 |- _ => rewrite H in I end. cbn [Z.eqb Pos.eqb] in I.
    match goal with H : word_at _ (p_target p pos) = Some _ |- _ =>
      apply read_ptr_word in H; rewrite H in I end.
    cbn [bind] in I. apply ok_inj in I. rewrite <- I in *. cbn [l_tag l_seg] in *.
    match goal with H : den_items _ _ _ _ _ _ |- _ => pose proof (den_items_len _ _ _ _ _ _ H) as L end.
    split; [assumption|]. unfold blen. lia.
Qed.

(** A getter on a non-null list slot gives a list of that value. *)
Lemma getter o d vs k t v : obj_den o d vs -> 0 <= k -> v_ptr vs k = v ->
  match v with VNull | VStruct _ _ => False | _ => True end ->
  exists l, o_read_list o (8 * k) t = Ok (Some l) /\ lobj_den l v /\ l_seg l = o_seg o /\ l_it l = t.
Proof.
  intros O Hk E N. pose proof (o_read_list_spec o d vs k t O Hk) as R. rewrite E in R.
  destruct v; try contradiction; exact R.
Qed.

Lemma getitem_in l i : 0 <= i < l_count l -> l_getitem l i = read_item l i.
Proof.
  intros H. unfold l_getitem. destruct (Z.ltb_spec i 0); [lia|].
  replace ((0 <=? i) && (i <? l_count l)) with true by (symmetry; lia). reflexivity.
Qed.

(** A list without a tag word, bit lists excluded (these cannot become structs) *)
Definition scalar_or_pointer_list (v : value) : Prop :=
  match v with VList tag _ _ => tag <> 1 | VPtrs _ => True | _ => False end.

(** What [lst[i]] is when such a list is read as structs: an object with 65535
    data words and 65535 pointers starting at the item (the sizes taken from
    the absent tag, -1), or AssertionError when these are not in the buffer. *)
Lemma plain_item l v i ds ps :
  lobj_den l v -> l_it l = ITStruct ds ps -> 0 <= i < l_count l -> scalar_or_pointer_list v ->
  l_getitem l i = (do o <- init_from_buffer (l_seg l) (l_off l + i * l_len l) 65535 65535; Ok (IObj o)) /\
  0 <= l_off l /\ 0 <= l_len l.
Proof.
  intros L T Hi N. rewrite getitem_in by exact Hi. unfold read_item. rewrite T.
  pose proof (plain_tag _ _ L) as P. destruct (lobj_den_attrs _ _ L) as [_ A].
  destruct v as [|d vs|tg c b|vs|ds' ps' items sl]; try contradiction; destruct P as [P P0]; rewrite P;
    change (struct_data_size (-1)) with 65535; change (struct_ptrs_size (-1)) with 65535;
    unfold offset_for_item.
  - destruct A as (A1 & A2 & A3 & _). rewrite A2. rewrite Z.add_0_r.
    split; [reflexivity|]. split; [exact P0|]. rewrite A1. cbn [scalar_or_pointer_list] in N.
    assert (C : tg = 0 \/ tg = 2 \/ tg = 3 \/ tg = 4 \/ tg = 5) by lia.
    destruct C as [->|[->|[->|[->| ->]]]]; vm_compute; discriminate.
  - destruct A as (A1 & A2 & _). rewrite A2, Z.add_0_r. split; [reflexivity|]. lia.
Qed.

(** C64a. Elements that became structs. In any buffer of less than 1048560
    bytes, every item of the list raises AssertionError. *)
Theorem C64_list_upgrade_refuted : forall o d vs k ds ps,
  obj_den o d vs -> 0 <= k -> scalar_or_pointer_list (v_ptr vs k) ->
  blen (sbuf (o_seg o)) < 1048560 ->
  exists l, o_read_list o (8 * k) (ITStruct ds ps) = Ok (Some l) /\
    l_count l = vcount (v_ptr vs k) /\
    forall i, 0 <= i < l_count l -> l_getitem l i = Err AssertionError.
Proof.
  intros o d vs k ds ps O Hk N B.
  destruct (getter o d vs k (ITStruct ds ps) _ O Hk eq_refl) as (l & R & L & E & T).
  { destruct (v_ptr vs k); try contradiction; exact Logic.I. }
  exists l. split; [exact R|]. split; [exact (proj1 (lobj_den_attrs _ _ L))|]. intros i Hi.
  destruct (plain_item _ _ _ _ _ L T Hi N) as (-> & Z1 & Z2).
  assert (0 <= i * l_len l) by nia.
  unfold init_from_buffer. cbn [o_off o_ptrs]. rewrite E.
  destruct (py_assert (l_off l + i * l_len l + 65535 * 8 <=? blen (sbuf (o_seg o)))) eqn:P1;
    [|unfold py_assert in P1; destruct (_ <=? _); [discriminate|]; cbn [bind]; congruence].
  cbn [bind].
  replace (l_off l + i * l_len l + 65535 * 8 + 65535 * 8 <=? blen (sbuf (o_seg o))) with false by (symmetry; lia).
  reflexivity.
Qed.
Print Assumptions C64_list_upgrade_refuted.

(** In a larger buffer an item may be returned; then its scalar field at byte
    [off] is not bounded by the element: it is the bytes [off] further in the
    list, i.e. of the following elements. Only the first field is right. *)
Theorem C64_upgrade_reads_neighbours : forall o d vs k ds ps tag c b,
  obj_den o d vs -> 0 <= k -> v_ptr vs k = VList tag c b -> 2 <= tag ->
  exists l, o_read_list o (8 * k) (ITStruct ds ps) = Ok (Some l) /\ l_count l = c /\
    forall i, 0 <= i < c ->
      l_getitem l i = Err AssertionError \/
      exists x, l_getitem l i = Ok (IObj x) /\
        forall off f, 0 <= off -> i * (list_bytes tag 1) + off + fsize f <= blen b -> off < 524280 ->
          o_read_primitive x off f = Ok (fdec f (sub b (i * list_bytes tag 1 + off) (fsize f))).
Proof.
  intros o d vs k ds ps tag c b O Hk V T2.
  destruct (getter o d vs k (ITStruct ds ps) _ O Hk V Logic.I) as (l & R & L & E & T).
  destruct (lobj_den_attrs _ _ L) as [C (A1 & A2 & A3 & A4 & A5 & A6)]. cbn [vcount] in C.
  exists l. split; [exact R|]. split; [exact C|]. intros i Hi. rewrite <- C in Hi.
  destruct (plain_item _ _ _ _ _ L T Hi ltac:(cbn; lia)) as (-> & Z1 & Z2).
  unfold init_from_buffer. cbn [o_off o_ptrs].
  destruct (l_off l + i * l_len l + 65535 * 8 <=? blen (sbuf (l_seg l))) eqn:P1; [|left; reflexivity].
  destruct (l_off l + i * l_len l + 65535 * 8 + 65535 * 8 <=? blen (sbuf (l_seg l))) eqn:P2; [|left; reflexivity].
  right. cbn [py_assert bind]. eexists. split; [reflexivity|].
  intros off f Ho Hb Hm. unfold o_read_primitive. cbn [o_ds o_seg o_off].
  destruct (Z.leb_spec (65535 * 8) off); [lia|].
  assert (LE : l_len l = list_bytes tag 1).
  { rewrite A1. assert (Q : tag = 2 \/ tag = 3 \/ tag = 4 \/ tag = 5) by lia.
    destruct Q as [->|[->|[->| ->]]]; reflexivity. }
  rewrite LE in *. assert (0 <= i * list_bytes tag 1) by nia. pose proof (fsize_pos f).
  destruct (bytes_at_some _ _ _ _ A6) as (B1 & B2 & B3 & B4 & B5).
  unfold slen in *. set (q := i * list_bytes tag 1) in *. clearbody q.
  rewrite read_primitive_in by (unfold slen; lia). f_equal. f_equal.
  rewrite B4, sub_sub by lia. f_equal. lia.
Qed.
Print Assumptions C64_upgrade_reads_neighbours.

Lemma word_fields u : 0 <= u < 2 ^ 64 -> p_kind (to_signed 64 u) = 0 -> 0 <= p_off (to_signed 64 u) ->
  u mod 2 ^ 32 = 4 * p_off (to_signed 64 u) /\
  u = 4 * p_off (to_signed 64 u) + 2 ^ 32 * p_dsize (to_signed 64 u) + 2 ^ 48 * p_psize (to_signed 64 u).
Proof.
  intros H. unfold p_kind, p_off, p_dsize, p_psize.
  assert (Q : exists e, to_signed 64 u = u - 2 ^ 64 * e /\ (e = 0 \/ e = 1)).
  { unfold to_signed. destruct (_ <? _); [exists 0|exists 1]; lia. }
  destruct Q as (e & -> & He).
  replace ((u - 2 ^ 64 * e) mod 4) with (u mod 4) by lia.
  replace ((u - 2 ^ 64 * e) / 4 mod 2 ^ 30) with (u / 4 mod 2 ^ 30) by lia.
  replace ((u - 2 ^ 64 * e) / 2 ^ 32 mod 2 ^ 16) with (u / 2 ^ 32 mod 2 ^ 16) by lia.
  replace ((u - 2 ^ 64 * e) / 2 ^ 48 mod 2 ^ 16) with (u / 2 ^ 48 mod 2 ^ 16) by lia.
  intros K P. unfold to_signed in *. change (2 ^ (30 - 1)) with 536870912 in *.
  destruct (Z.ltb_spec (u / 4 mod 2 ^ 30) 536870912); lia.
Qed.

Lemma tag_item l ds ps items sl : lobj_den l (VComp ds ps items sl) -> 0 < blen items ->
  (l_it l = ITPrim FI -> l_getitem l 0 = Ok (IInt (4 * blen items))) /\
  (l_it l = ITPrim FQ -> l_getitem l 0 = Ok (IInt (4 * blen items + 2 ^ 32 * ds + 2 ^ 48 * ps))).
Proof.
  intros L N. destruct (plain_tag _ _ L) as [K OF].
  destruct (lobj_den_attrs _ _ L) as [C (A1 & A2 & A3 & A4 & A5 & A6 & W & A7 & A8 & DI)]. cbn [vcount] in C.
  destruct (word_at_some _ _ _ W) as (W1 & W2 & W3).
  rewrite data_size_spec in A7. rewrite ptrs_size_spec in A8.
  pose proof (le_dec_range (sub (sbuf (l_seg l)) (l_off l) 8)) as UR.
  rewrite blen_sub in UR by (unfold slen in *; lia). change (256 ^ 8) with (2 ^ 64) in UR.
  unfold fdec in W3. cbn [fsigned fsize] in W3. change (8 * 8) with 64 in W3.
  set (u := le_dec (sub (sbuf (l_seg l)) (l_off l) 8)) in *.
  rewrite W3 in K, OF, A7, A8.
  pose proof (word_fields u UR K ltac:(lia)) as [F1 F2]. rewrite OF, A7, A8 in F2. rewrite OF in F1.
  rewrite getitem_in by lia. unfold read_item.
  split; intros T; rewrite T, Z.mul_0_l, Z.add_0_r;
    rewrite read_primitive_in by (cbn [fsize]; lia); cbn [bind]; do 2 f_equal;
    unfold fdec; cbn [fsigned fsize].
  - rewrite <- F1. unfold u.
    change 8 with (4 + 4). rewrite (sub_split _ (l_off l) 4 4) by (unfold slen in *; lia).
    rewrite le_dec_app. rewrite blen_sub by (unfold slen in *; lia).
    pose proof (le_dec_range (sub (sbuf (l_seg l)) (l_off l) 4)) as U4.
    rewrite blen_sub in U4 by (unfold slen in *; lia). change (256 ^ 4) with (2 ^ 32) in *. lia.
  - exact F2.
Qed.

(** C64b. The other direction: a list of structs read by a schema that still
    has scalars. The tag word is read as the first item ... *)
Theorem C64_list_downgrade_refuted : forall o d vs k ds ps items sl,
  obj_den o d vs -> 0 <= k -> v_ptr vs k = VComp ds ps items sl -> items <> [] ->
  exists l4 l8, o_read_list o (8 * k) (ITPrim FI) = Ok (Some l4) /\ o_read_list o (8 * k) (ITPrim FQ) = Ok (Some l8) /\
    l_count l4 = blen items /\ l_count l8 = blen items /\
    l_getitem l4 0 = Ok (IInt (4 * blen items)) /\
    l_getitem l8 0 = Ok (IInt (4 * blen items + 2 ^ 32 * ds + 2 ^ 48 * ps)).
Proof.
  intros o d vs k ds ps items sl O Hk V N.
  assert (N0 : 0 < blen items) by (unfold blen; destruct items; [congruence|cbn [length]; lia]).
  destruct (getter o d vs k (ITPrim FI) _ O Hk V Logic.I) as (l4 & R4 & L4 & E4 & T4).
  destruct (getter o d vs k (ITPrim FQ) _ O Hk V Logic.I) as (l8 & R8 & L8 & E8 & T8).
  exists l4, l8. split; [exact R4|]. split; [exact R8|].
  split; [exact (proj1 (lobj_den_attrs _ _ L4))|]. split; [exact (proj1 (lobj_den_attrs _ _ L8))|].
  split; [exact (proj1 (tag_item _ _ _ _ _ L4 N0) T4)|exact (proj2 (tag_item _ _ _ _ _ L8 N0) T8)].
Qed.
Print Assumptions C64_list_downgrade_refuted.

(** ... and every later item is one word early. With one-word structs, item
    i + 1 is the scalar of struct i, and the last struct's is never seen. *)
Theorem C64_downgrade_shifted : forall o d vs k items sl f,
  obj_den o d vs -> 0 <= k -> v_ptr vs k = VComp 1 0 items sl ->
  exists l, o_read_list o (8 * k) (ITPrim f) = Ok (Some l) /\ l_count l = blen items /\
    forall i x ys, 0 <= i -> i + 1 < blen items -> nth_error items (Z.to_nat i) = Some (x, ys) ->
      l_getitem l (i + 1) = Ok (IInt (fdec f (sub x 0 (fsize f)))).
Proof.
  intros o d vs k items sl f O Hk V.
  destruct (getter o d vs k (ITPrim f) _ O Hk V Logic.I) as (l & R & L & E & T).
  destruct (lobj_den_attrs _ _ L) as [C (A1 & A2 & A3 & A4 & A5 & A6 & W & A7 & A8 & DI)]. cbn [vcount] in C.
  exists l. split; [exact R|]. split; [exact C|]. intros i x ys Hi Hn NE.
  rewrite getitem_in by lia. unfold read_item. rewrite T, A1.
  destruct (den_items_nth _ _ _ 1 0 _ _ _ _ Z.le_0_1 (Z.le_refl 0) DI NE) as [B _].
  replace (Z.of_nat (Z.to_nat i)) with i in B by lia.
  destruct (bytes_at_some _ _ _ _ B) as (B1 & B2 & B3 & B4 & B5).
  assert (fsize f <= 8 /\ 0 < fsize f) by (destruct f; cbn; lia).
  replace (l_off l + (i + 1) * (8 * (1 + 0))) with (l_off l + 8 + 8 * ((1 + 0) * i)) by lia.
  rewrite read_primitive_in by (unfold slen in *; lia). cbn [bind]. do 3 f_equal.
  rewrite B4, sub_sub by (unfold slen in *; lia). f_equal. lia.
Qed.
Print Assumptions C64_downgrade_shifted.

(** What does work: a list of pointer-only structs read as a list of texts
    (or data) gives the first pointer of each struct. *)
Theorem C64_texts_from_structs : forall o d vs k ps items sl add,
  obj_den o d vs -> 0 <= k -> v_ptr vs k = VComp 0 ps items sl -> 1 <= ps ->
  exists l, o_read_list o (8 * k) (ITText add) = Ok (Some l) /\ l_count l = blen items /\
    forall i x ys r, 0 <= i < blen items -> nth_error items (Z.to_nat i) = Some (x, ys) ->
      vbytes (v_ptr ys 0) None add = Some (Ok r) ->
      l_getitem l i = Ok (IBytes r).
Proof.
  intros o d vs k ps items sl add O Hk V P1.
  destruct (getter o d vs k (ITText add) _ O Hk V Logic.I) as (l & R & L & E & T).
  destruct (lobj_den_attrs _ _ L) as [C (A1 & A2 & A3 & A4 & A5 & A6 & W & A7 & A8 & DI)]. cbn [vcount] in C.
  exists l. split; [exact R|]. split; [exact C|]. intros i x ys r Hi NE VB.
  rewrite getitem_in by lia. unfold read_item. rewrite T.
  destruct (den_items_nth _ _ _ 0 ps _ _ _ _ (Z.le_refl 0) (proj1 A6) DI NE) as [_ P].
  replace (Z.of_nat (Z.to_nat i)) with i in P by lia.
  pose proof (den_ptrs_len _ _ _ _ P) as PL. rewrite <- PL in P.
  destruct (ptr_item _ _ _ 0 P ltac:(unfold blen; lia)) as (p & pos' & p' & RP & F & K & D).
  replace (l_off l + 8 + 8 * ((0 + ps) * i) + 8 * 0 + 8 * 0) with (offset_for_item l i) in *
    by (unfold offset_for_item; rewrite A1, A2; lia).
  rewrite RP. cbn [bind]. rewrite F. cbn [bind]. rewrite (read_str_spec _ _ _ _ _ _ _ D K VB). reflexivity.
Qed.
Print Assumptions C64_texts_from_structs.

(** Examples: an object with a list of two Int64 (5, 6), a list of two
    one-word structs (5, 6), and a list of one pointer-only struct holding the
    text "abc", on which the hypotheses of all the theorems above hold. *)
Definition evo : bytes :=
  le_enc 8 (w_struct 0 0 3) ++
  le_enc 8 (w_list 2 5 2) ++ le_enc 8 (w_list 3 7 2) ++ le_enc 8 (w_list 5 7 1) ++
  le_enc 8 5 ++ le_enc 8 6 ++
  le_enc 8 (w_struct 2 1 0) ++ le_enc 8 5 ++ le_enc 8 6 ++
  le_enc 8 (w_struct 1 0 1) ++ le_enc 8 (w_list 0 2 4) ++ text_abc.
Definition evo_vals : list value :=
  [ VList 5 2 (le_enc 8 5 ++ le_enc 8 6); VComp 1 0 [(le_enc 8 5, []); (le_enc 8 6, [])] [];
    VComp 0 1 [([], [VList 2 4 [x61; x62; x63; x00]])] [] ].
Definition evo_obj : obj :=
  {| o_seg := {| sbuf := evo; soffs := None |}; o_off := 8; o_ptrs := 8; o_ds := 0; o_ps := 3 |}.
Example C64_ex : obj_den evo_obj [] evo_vals /\
  o_read_list evo_obj 0 (ITPrim FQ) <> Ok None /\
  (do l <- o_read_list evo_obj 0 (ITPrim FQ); match l with Some l => l_getitem l 1 | None => Ok INone end) = Ok (IInt 6) /\
  (do l <- o_read_list evo_obj 0 (ITStruct 1 0); match l with Some l => l_getitem l 1 | None => Ok INone end) = Err AssertionError /\
  (do l <- o_read_list evo_obj 8 (ITPrim FQ); match l with Some l => l_getitem l 1 | None => Ok INone end) = Ok (IInt 5) /\
  (do l <- o_read_list evo_obj 16 (ITText (-1)); match l with Some l => l_getitem l 0 | None => Ok INone end) = Ok (IBytes (Some abc)).
Proof.
  split; [|split; [vm_compute; discriminate|vm_compute; auto]].
  unfold obj_den. split; [reflexivity|]. split; [vm_compute; split; congruence|]. split; [vm_compute; split; congruence|].
  split; [vm_compute; reflexivity|]. change (Z.to_nat (o_ps evo_obj)) with 3%nat.
  eapply dp_cons; [vm_compute; reflexivity| |].
  { apply den_list; [reflexivity|vm_compute; discriminate|vm_compute; reflexivity]. }
  eapply dp_cons; [vm_compute; reflexivity| |].
  { eapply den_clist with (tag := w_struct 2 1 0); [reflexivity|reflexivity|vm_compute; reflexivity|reflexivity|vm_compute; discriminate| |vm_compute; reflexivity].
    eapply di_cons; [vm_compute; reflexivity|constructor; split; vm_compute; discriminate|].
    eapply di_cons; [vm_compute; reflexivity|constructor; split; vm_compute; discriminate|]. constructor. }
  eapply dp_cons; [vm_compute; reflexivity| |].
  { eapply den_clist with (tag := w_struct 1 0 1); [reflexivity|reflexivity|vm_compute; reflexivity|reflexivity|vm_compute; discriminate| |vm_compute; reflexivity].
    eapply di_cons; [vm_compute; reflexivity| |constructor].
    eapply dp_cons; [vm_compute; reflexivity| |constructor; split; vm_compute; discriminate].
    apply den_list; [reflexivity|vm_compute; discriminate|vm_compute; reflexivity]. }
  constructor. split; vm_compute; discriminate.
Qed.
