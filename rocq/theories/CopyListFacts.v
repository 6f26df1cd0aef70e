(** Storing a Python sequence writes the canonical encoding of its value. *)
From Verif Require FloatBits FloatSpec FloatFacts.
From Verif Require Import Base Spec BaseFacts Ptr PtrFacts Segment SegmentFacts Builder Copy Enc EncFacts
  EncDen CopyFacts Struct List Query StructFacts ObjFacts CopyList ArgSpec.
From Coq Require Import ZifyBool ZifyNat.
Ltac Zify.zify_post_hook ::= Z.div_mod_to_equations.

(** What writing a pointer-sized thing of value [v] must do *)
Definition wr_ok (w : bytes -> Z -> res bytes) (v : value) : Prop :=
  forall dst dp,
    0 <= dp -> dp mod 8 = 0 -> dp + 8 <= blen dst -> blen dst mod 8 = 0 ->
    blen dst + blen (content v) <= 2 ^ 32 ->
    w dst dp = Ok (upd dst dp (le_enc 8 (ptr_word v ((blen dst - dp - 8) / 8))) ++ content v).

Lemma Forall2_length {A B} (R : A -> B -> Prop) l l' : Forall2 R l l' -> length l = length l'.
Proof. induction 1; cbn [length]; congruence. Qed.

Lemma wr_null : wr_ok (fun dst dp => write_int64 dst dp 0) VNull.
Proof.
  intros dst dp H1 H2 H3 H4 H5. rewrite write_int64_in by lia.
  cbn [ptr_word content]. rewrite app_nil_r. reflexivity.
Qed.

Lemma text_list_ok dst dp s tz :
  0 <= tz <= 1 -> blen s + tz < 2 ^ 28 ->
  0 <= dp -> dp + 8 <= blen dst ->
  alloc_text_tz dst dp (Some s) tz =
  Ok (upd dst dp (le_enc 8 (w_list ((blen dst - dp - 8) / 8) 2 (blen s + tz))) ++ pad8 (s ++ zeros tz), blen dst).
Proof.
  intros Htz Hs Hdp Hb. pose proof (blen_nonneg s). unfold alloc_text_tz.
  change LIST_SIZE_8 with 2. rewrite alloc_list_in by lia. cbn [bind].
  set (w := le_enc 8 _).
  assert (Hw8 : blen w = 8) by (unfold w; apply blen_le_enc).
  assert (Hu : blen (upd dst dp w) = blen dst) by (apply blen_upd; lia).
  rewrite py_slice_set_in by (lens; rewrite ?Hu; lia).
  rewrite upd_app2 by (lens; rewrite ?Hu; lia). rewrite Hu.
  replace (blen dst - blen dst) with 0 by lia. unfold pad8. rewrite blen_app, blen_zeros by lia.
  replace (8 * ((blen s + tz + 7) / 8)) with (blen s + (tz + (- (blen s + tz)) mod 8)) by lia.
  rewrite zeros_add by lia. rewrite zeros_add by lia.
  pose proof (upd_exact [] (zeros (blen s)) s (zeros tz ++ zeros (- (blen s + tz) mod 8))) as HX.
  cbn [app] in HX. change (blen (@nil byte)) with 0 in HX.
  rewrite HX by (rewrite blen_zeros; lia). rewrite <- app_assoc. reflexivity.
Qed.

Lemma wr_text nul x v :
  text_val nul x v -> limv v ->
  wr_ok (fun dst dp => do s <- as_bytes x;
           do (buf, _) <- (if nul then alloc_text dst dp s else alloc_data dst dp s); Ok buf) v.
Proof.
  intros H L. destruct x; cbn [text_val] in H; try contradiction; subst v.
  - intros dst dp H1 H2 H3 H4 H5. cbn [as_bytes bind].
    assert (E : (if nul then alloc_text dst dp None else alloc_data dst dp None) =
                do buf <- write_int64 dst dp 0; Ok (buf, -1)) by (destruct nul; reflexivity).
    rewrite E, wr_null by assumption. reflexivity.
  - intros dst dp H1 H2 H3 H4 H5. cbn [as_bytes bind].
    unfold alloc_text, alloc_data. unfold text_value in *. destruct nul.
    + apply (proj1 (vall_vlist _ _ _ _)) in L. cbn [lim1] in L.
      rewrite text_list_ok by lia. cbn [bind ptr_word content]. reflexivity.
    + apply (proj1 (vall_vlist _ _ _ _)) in L. cbn [lim1] in L.
      rewrite text_list_ok by lia. cbn [bind ptr_word content].
      change (zeros 0) with (@nil byte). rewrite app_nil_r, Z.add_0_r. reflexivity.
Qed.

Lemma wr_struct fuel x v :
  struct_val x v -> limv v -> (2 * vdepth v <= fuel)%nat ->
  wr_ok (fun dst dp => copy_struct_arg fuel dst dp x) v.
Proof.
  intros H L Hf. destruct x; cbn [struct_val] in H; try contradiction.
  - subst v. intros dst dp H1 H2 H3 H4 H5. cbn [copy_struct_arg copy_from_struct]. apply wr_null; assumption.
  - destruct H as (d & vs & (O & A) & ->). intros dst dp H1 H2 H3 H4 H5. cbn [copy_struct_arg].
    apply copy_from_struct_spec; assumption.
Qed.

(** ** the loops *)

Lemma write_ptr_items (w : bytes -> Z -> pyval -> res bytes) xs vs :
  Forall2 (fun x v => wr_ok (fun dst dp => w dst dp x) v /\ blen (content v) mod 8 = 0) xs vs ->
  forall dst dp,
  0 <= dp -> dp mod 8 = 0 -> dp + 8 * blen vs <= blen dst -> blen dst mod 8 = 0 ->
  blen dst + blen (contents (vcs_of vs)) <= 2 ^ 32 ->
  write_items w 8 xs dst dp =
  Ok (upd dst dp (ptr_words (vcs_of vs) ((blen dst - dp - 8) / 8)) ++ contents (vcs_of vs)).
Proof.
  intros H. induction H as [|x v xs vs [Hr Hc] Hp IH]; intros dst dp Hdp Hdp8 Hb Hd8 Hl; cbn [write_items].
  - cbn [vcs_of map ptr_words contents snd concat]. change (blen (@nil value)) with 0 in Hb.
    rewrite upd_nil, app_nil_r by lia. reflexivity.
  - rewrite blen_cons in Hb. rewrite blen_contents_cons in Hl. nonneg. pose proof (blen_nonneg vs).
    cbn [vcs_of map ptr_words]. fold (vcs_of vs). rewrite contents_cons.
    rewrite Hr by lia. clear Hr. cbn [bind].
    set (u := le_enc 8 (ptr_word v ((blen dst - dp - 8) / 8))).
    assert (Hw8 : blen u = 8) by (unfold u; apply blen_le_enc).
    assert (Hu : blen (upd dst dp u) = blen dst) by (apply blen_upd; lia).
    rewrite IH; rewrite ?blen_app, ?Hu; try lia.
    set (off' := (blen dst + blen (content v) - (dp + 8) - 8) / 8).
    assert (Hpw : blen (ptr_words (vcs_of vs) off') = 8 * blen vs)
      by (rewrite blen_ptr_words, blen_vcs_of; lia).
    rewrite upd_app1 by (rewrite ?Hpw, ?Hu; lia).
    rewrite <- app_assoc. do 2 f_equal.
    replace (dp + 8) with (dp + blen u) by lia.
    rewrite upd_join by (rewrite ?Hpw; lia).
    do 2 f_equal. unfold off'. f_equal. lia.
Qed.

(** [w] writes the scalar [z] for the argument [x] *)
Definition wr_scalar (f : ifmt) (w : bytes -> Z -> pyval -> res bytes) (x : pyval) (z : Z) : Prop :=
  (forall buf pos, w buf pos x = b_write f buf pos z) /\ in_fmt f z.
Lemma write_prim_items f w xs zs :
  Forall2 (wr_scalar f w) xs zs -> forall dst dp,
  0 <= dp -> dp + fsize f * blen zs <= blen dst ->
  write_items w (fsize f) xs dst dp =
  Ok (upd dst dp (concat (map (fenc f) zs))).
Proof.
  intros H. pose proof (fsize_pos f) as Hf.
  induction H as [|x z xs zs [Hx Hz] Hr IH]; intros dst dp Hdp Hb; cbn [write_items map concat].
  - change (blen (@nil Z)) with 0 in Hb. rewrite upd_nil by lia. reflexivity.
  - rewrite blen_cons in Hb. pose proof (blen_nonneg zs).
    rewrite Hx. unfold b_write. rewrite pack_into_in by (try assumption; nia). cbn [bind].
    pose proof (blen_fenc f z) as Hfe.
    assert (Hcat : blen (concat (map (fenc f) zs)) = fsize f * blen zs).
    { clear. induction zs as [|z zs IH]; [unfold blen; cbn [map concat length]; lia|].
      cbn [map concat]. rewrite blen_app, blen_cons, blen_fenc, IH. lia. }
    rewrite IH by (rewrite ?blen_upd; nia).
    rewrite <- Hfe. rewrite upd_join by (rewrite ?Hcat, ?Hfe; nia). reflexivity.
Qed.

Lemma int_scalars f xs zs : Forall2 (int_val f) xs zs ->
  Forall2 (wr_scalar f (fun buf pos x => do z <- as_int x; b_write f buf pos z)) xs zs.
Proof.
  induction 1 as [|x z xs zs [Hx Hz] Hr IH]; constructor; [|exact IH]. split; [|exact Hz].
  intros buf pos. destruct Hx as [->|(b & -> & ->)]; reflexivity.
Qed.

(** floats *)
Lemma float_bits_fmt dbl b : in_fmt FQ b -> in_fmt (float_fmt dbl) (float_bits dbl b).
Proof.
  destruct dbl; [auto|]. intros H. cbn [float_fmt float_bits].
  assert (B : FloatSpec.bits FloatBits.double b).
  { unfold in_fmt in H. change (fmin FQ) with 0 in H. change (fmax FQ) with (2 ^ 64 - 1) in H. unfold FloatSpec.bits. change (2 * FloatBits.fs FloatBits.double) with (2 ^ 64). lia. }
  apply FloatFacts.to32_bits in B. unfold FloatSpec.bits in B. change (2 * FloatBits.fs FloatBits.single) with (2 ^ 32) in B.
  unfold in_fmt. change (fmin FI) with 0. change (fmax FI) with (2 ^ 32 - 1). lia.
Qed.
Lemma float_write dbl x b : float_val x b -> wr_scalar (float_fmt dbl) (write_float dbl) x (float_bits dbl b).
Proof.
  intros (E & B). split; [|apply float_bits_fmt, B]. intros buf pos. unfold write_float. rewrite E. destruct dbl; reflexivity.
Qed.
Lemma float_scalars dbl xs bs : Forall2 float_val xs bs ->
  Forall2 (wr_scalar (float_fmt dbl) (write_float dbl)) xs (map (float_bits dbl) bs).
Proof. induction 1; constructor; [apply float_write|]; assumption. Qed.
Lemma float_list_val (dbl : bool) (xs : list pyval) bs v : Forall2 float_val xs bs ->
  v = VList (if dbl then 5 else 4) (blen xs) (concat (map (fun b : Z => le_enc (if dbl then 8 else 4) (float_bits dbl b)) bs)) ->
  v = VList (tag_of (float_fmt dbl)) (blen xs) (concat (map (fenc (float_fmt dbl)) (map (float_bits dbl) bs))).
Proof. intros _ ->. rewrite map_map. destruct dbl; reflexivity. Qed.

(** struct bodies written one after the other into zeroed memory *)
Lemma inline_ok fuel o d vs dst dp :
  obj_val o d vs -> Forall limv vs ->
  (2 * list_max (map vdepth vs) <= fuel)%nat ->
  0 <= dp -> dp mod 8 = 0 -> dp + 8 * (o_ds o + o_ps o) <= blen dst -> blen dst mod 8 = 0 ->
  blen dst + blen (contents (vcs_of vs)) <= 2 ^ 32 ->
  sub dst dp (8 * (o_ds o + o_ps o)) = zeros (8 * (o_ds o + o_ps o)) ->
  copy_struct_inline (copy_pointer fuel) (o_seg o) (as_pointer o 0) 0 dst dp =
  Ok (upd dst dp (d ++ ptr_words (vcs_of vs) ((blen dst - dp) / 8 - o_ds o - 1)) ++ contents (vcs_of vs)).
Proof.
  intros (O & A1 & A2 & A3) L Hf Hdp Hdp8 Hb Hd8 Hl Hz.
  destruct (obj_sizes _ _ _ O) as [S1 S2]. destruct O as (E & Hd & Hp & B & D).
  pose proof (bytes_at_some _ _ _ _ B) as (B1 & B2 & B3 & B4 & B5).
  pose proof (den_ptrs_bounds _ _ _ _ D) as (P1 & P2).
  unfold copy_struct_inline, as_pointer. rewrite new_struct_spec by lia.
  set (off := (o_off o - 0 - 8) / 8).
  assert (Hoff : - 2 ^ 29 <= off < 2 ^ 29) by (subst off; lia).
  rewrite deref_spec, data_size_spec, ptrs_size_spec, w_struct_dsize, w_struct_psize by lia.
  assert (T : p_target (w_struct off (o_ds o) (o_ps o)) 0 = o_off o).
  { unfold p_target. rewrite w_struct_off by lia. subst off. lia. }
  rewrite T. rewrite check_bounds_in by lia. cbn [bind]. unfold slen in *.
  rewrite write_slice_in by lia.
  replace (o_ds o * 8) with (8 * o_ds o) by lia. rewrite <- B4.
  assert (Hu : blen (upd dst dp d) = blen dst) by (apply blen_upd; lia).
  pose proof (proj1 (proj2 (copy_all (o_seg o))) _ _ _ D L fuel Hf) as PO.
  rewrite (many_ptrs_ok (copy_pointer fuel) (o_seg o) (o_off o + 8 * o_ds o) (o_ps o) vs);
    rewrite ?Hu; try assumption; try lia.
  2:{ intros i Hi.
      assert (Hlt : (i < length vs)%nat) by (apply nth_error_Some; congruence).
      unfold blen in S2. rewrite sub_upd_other by lia.
      replace (dp + 8 * o_ds o + 8 * Z.of_nat i) with (dp + (8 * o_ds o + 8 * Z.of_nat i)) by lia.
      rewrite <- (sub_sub dst dp (8 * (o_ds o + o_ps o))) by lia.
      rewrite Hz. apply sub_zeros; lia. }
  f_equal. f_equal. rewrite <- S1. rewrite upd_join by (rewrite ?blen_ptr_words, ?blen_vcs_of; lia).
  f_equal. f_equal. f_equal. lia.
Qed.

Lemma write_struct_items fuel ds ps xs its :
  0 <= ds -> 0 <= ps ->
  Forall2 (fun x it => exists o, x = PObj o /\ obj_val o (fst it) (snd it) /\ o_ds o = ds /\ o_ps o = ps) xs its ->
  Forall (fun it => Forall limv (snd it)) its ->
  Forall (fun it => 2 * list_max (map vdepth (snd it)) <= fuel)%nat its ->
  forall dst dp,
  0 <= dp -> dp mod 8 = 0 -> dp + 8 * ((ds + ps) * blen its) <= blen dst -> blen dst mod 8 = 0 ->
  blen dst + blen (icontents (ics_of its)) <= 2 ^ 32 ->
  sub dst dp (8 * ((ds + ps) * blen its)) = zeros (8 * ((ds + ps) * blen its)) ->
  write_items (fun buf pos x => match x with
        | PObj o => copy_struct_inline (copy_pointer fuel) (o_seg o) (as_pointer o 0) 0 buf pos
        | _ => Err TypeError end) ((ds + ps) * 8) xs dst dp =
  Ok (upd dst dp (item_words ds ps (ics_of its) ((blen dst - dp) / 8)) ++ icontents (ics_of its)).
Proof.
  intros Hds Hps H. induction H as [|x [d vs] xs its (o & -> & O & E1 & E2) Hr IH];
    intros HL HF dst dp Hdp Hdp8 Hb Hd8 Hl Hz; cbn [write_items].
  - cbn [ics_of map item_words icontents concat]. change (blen (@nil (bytes * list value))) with 0 in Hb.
    rewrite upd_nil, app_nil_r by lia. reflexivity.
  - cbn [fst snd] in *. inversion HL as [|? ? HL1 HL2]; subst. inversion HF as [|? ? HF1 HF2]; subst.
    cbn [snd] in HL1, HF1. cbn [ics_of map fst snd] in *. fold (ics_of its) in *.
    rewrite icontents_cons in *. rewrite blen_app in Hl. cbn [item_words].
    rewrite blen_cons in *. pose proof (blen_nonneg its). nonneg.
    set (ds := o_ds o) in *. set (ps := o_ps o) in *.
    set (T' := 8 * ((ds + ps) * blen its)) in *.
    assert (HT : 8 * ((ds + ps) * (blen its + 1)) = 8 * (ds + ps) + T') by (unfold T'; lia).
    assert (HT0 : 0 <= T') by (unfold T'; nia).
    rewrite HT in *.
    destruct (obj_sizes _ _ _ (proj1 O)) as [S1 S2]. fold ds in S1. fold ps in S2.
    assert (Hsub : forall a m, 0 <= a -> 0 <= m -> a + m <= 8 * (ds + ps) + T' ->
              sub dst (dp + a) m = zeros m).
    { intros a m Ha Hm Ham. rewrite <- (sub_sub dst dp (8 * (ds + ps) + T') a m) by lia.
      rewrite Hz. apply sub_zeros; lia. }
    rewrite (inline_ok fuel o d vs) by (try assumption; fold ds ps; try lia;
      replace dp with (dp + 0) by lia; apply Hsub; lia).
    fold ds. cbn [bind].
    set (iw0 := d ++ ptr_words (vcs_of vs) ((blen dst - dp) / 8 - ds - 1)).
    assert (Hiw0 : blen iw0 = 8 * (ds + ps))
      by (unfold iw0; rewrite blen_app, blen_ptr_words, blen_vcs_of; lia).
    assert (Hu : blen (upd dst dp iw0) = blen dst) by (apply blen_upd; lia).
    assert (Hcm : blen (contents (vcs_of vs)) mod 8 = 0).
    { apply contents_mod. unfold vcs_of. rewrite Forall_map. cbn [snd].
      pose proof (obj_wf _ _ _ (proj1 O)) as W. apply (proj1 (vall_struct _ _ _)) in W.
      eapply Forall_impl; [|apply W]. intros v Hv. apply content_mod. exact Hv. }
    assert (His : Forall (fun it => blen (fst it) = 8 * ds /\ blen (snd it) = ps) its).
    { clear -Hr. induction Hr as [|x [d vs] xs its (o' & _ & O & E1 & E2) Hr IH]; constructor; [|exact IH].
      destruct (obj_sizes _ _ _ (proj1 O)). cbn [fst snd] in *. lia. }
    replace ((ds + ps) * 8) with (8 * (ds + ps)) at 2 by lia.
    rewrite IH; rewrite ?blen_app, ?Hu; try assumption; try lia.
    2:{ fold T'. rewrite sub_app1 by (rewrite ?Hu; lia).
        rewrite sub_upd_other by lia. apply Hsub; lia. }
    set (iw := item_words ds ps (ics_of its) _).
    assert (Hiw : blen iw = T').
    { unfold iw. rewrite blen_item_words by (apply ics_of_sizes; exact His).
      rewrite blen_ics_of. reflexivity. }
    rewrite upd_app1 by (rewrite ?Hu, ?Hiw; lia).
    rewrite <- app_assoc. do 2 f_equal.
    replace (dp + 8 * (ds + ps)) with (dp + blen iw0) by lia.
    rewrite upd_join by lia. unfold iw0. rewrite <- !app_assoc. do 3 f_equal.
    unfold iw. f_equal. lia.
Qed.

(** ** the whole list *)

Lemma list_val_wf t : forall x v, list_val t x v -> limv v -> wfv v.
Proof.
  induction t as [| |f|dbl|ds ps|add|t IH]; intros x v [[-> ->]|(items & Hn & Hi & H)] L; try exact (conj I I).
  - subst v. apply (proj1 (vall_vlist _ _ _ _)) in L. apply vall_vlist. cbn [lim1 wf1] in *.
    pose proof (blen_nonneg items). repeat split; try lia. 
  - contradiction.
  - destruct H as (zs & F & ->). apply (proj1 (vall_vlist _ _ _ _)) in L. apply vall_vlist. cbn [lim1 wf1] in *.
    pose proof (blen_nonneg items). repeat split; try lia; try (destruct f; cbn; lia).
    rewrite tag_of_bytes. apply Forall2_length in F. unfold blen at 2. rewrite F. fold (blen zs).
    clear. induction zs as [|z zs IH]; [unfold blen; cbn [map concat length]; lia|].
    cbn [map concat]. rewrite blen_app, blen_cons, blen_fenc, IH. lia.
  - destruct H as (bs & F & V). apply (float_list_val dbl items bs v F) in V. subst v. apply (float_scalars dbl) in F.
    set (f := float_fmt dbl) in *. set (zs := map (float_bits dbl) bs) in *. clearbody f zs.
    apply (proj1 (vall_vlist _ _ _ _)) in L. apply vall_vlist. cbn [lim1 wf1] in *.
    pose proof (blen_nonneg items). repeat split; try lia; try (destruct f; cbn; lia).
    rewrite tag_of_bytes. apply Forall2_length in F. unfold blen at 2. rewrite F. fold (blen zs).
    clear. induction zs as [|z zs IH]; [unfold blen; cbn [map concat length]; lia|].
    cbn [map concat]. rewrite blen_app, blen_cons, blen_fenc, IH. lia.
  - destruct H as (Hds & Hps & Hl & its & F & ->). apply (proj1 (vall_comp _ _ _ _ _)) in L.
    apply vall_comp. destruct L as [L1 L2]. cbn [lim1] in L1. change (blen (@nil byte)) with 0 in *.
    assert (El : blen its = blen items) by (apply Forall2_length in F; unfold blen; congruence).
    split.
    + cbn [wf1]. change (blen (@nil byte)) with 0. repeat split; try lia.
      clear -F. induction F as [|x [d vs] xs its (o' & _ & O & E1 & E2) Hr IH]; constructor; [|exact IH].
      destruct (obj_sizes _ _ _ (proj1 O)). cbn [fst snd] in *. lia.
    + clear -F. induction F as [|x [d vs] xs its (o' & _ & O & E1 & E2) Hr IH]; constructor; [|exact IH].
      cbn [snd fst] in *. pose proof (obj_wf _ _ _ (proj1 O)) as W.
      apply (proj1 (vall_struct _ _ _)) in W. apply W.
  - destruct H as (Ha & vs & F & ->). apply (proj1 (vall_ptrs _ _)) in L. apply vall_ptrs.
    destruct L as [L1 L2]. cbn [lim1 wf1] in *. split; [lia|].
    clear -F L2. induction F as [|x v xs vs Hx Hr IH]; constructor; inversion L2; subst; auto.
    destruct x; cbn [text_val] in Hx; try contradiction; subst v; [exact (conj I I)|].
    unfold text_value in *. destruct (negb (add =? 0)).
    + apply vall_vlist. match goal with H : vall lim1 _ |- _ => apply (proj1 (vall_vlist _ _ _ _)) in H; cbn [lim1] in H end.
      pose proof (blen_nonneg b). cbn [wf1]. repeat split; try lia. rewrite blen_app. reflexivity.
    + apply vall_vlist. match goal with H : vall lim1 _ |- _ => apply (proj1 (vall_vlist _ _ _ _)) in H; cbn [lim1] in H end.
      pose proof (blen_nonneg b). cbn [wf1]. repeat split; try lia.
  - destruct H as (vs & F & ->). apply (proj1 (vall_ptrs _ _)) in L. apply vall_ptrs.
    destruct L as [L1 L2]. cbn [lim1 wf1] in *. split; [lia|].
    clear -F L2 IH. induction F as [|x v xs vs Hx Hr IH']; constructor; inversion L2; subst; auto.
    eapply IH; eassumption.
Qed.

Lemma pad8_mod b : blen b mod 8 = 0 -> pad8 b = b.
Proof.
  intros H. unfold pad8. replace ((- blen b) mod 8) with 0 by (rewrite Z_mod_zero_opp_full; lia).
  apply app_nil_r.
Qed.

(** the part of copy_from_list before the loop, for a sequence *)
Lemma copy_list_seq fuel t dst dp x n :
  py_len x = Ok n ->
  copy_from_list fuel t dst dp x =
  (do (buf, pos) <-
     match t with
     | ITStruct data_size ptrs_size =>
         do (buf, pos) <- alloc_list dst dp (it_size_tag t) ((data_size + ptrs_size) * n) (it_length t * n + 8);
         do buf <- write_int64 buf pos (new_struct n data_size ptrs_size);
         Ok (buf, pos + 8)
     | _ => alloc_list dst dp (it_size_tag t) n (it_length t * n)
     end;
   do items <- py_iter x;
   write_items (fun buf pos x =>
    match t with
    | ITVoid => Ok buf
    | ITBool => Err NotImplementedError
    | ITPrim f => do z <- as_int x; b_write f buf pos z
    | ITFloat dbl => write_float dbl buf pos x
    | ITStruct _ _ =>
        match x with
        | PObj o => copy_struct_inline (copy_pointer fuel) (o_seg o) (as_pointer o 0) 0 buf pos
        | _ => Err TypeError
        end
    | ITText additional_size =>
        do s <- as_bytes x;
        do (buf, _) <- (if additional_size =? 0 then alloc_data buf pos s else alloc_text buf pos s);
        Ok buf
    | ITList inner => copy_from_list fuel inner buf pos x
    end) (it_length t) items buf pos).
Proof.
  intros H. destruct t; cbn [copy_from_list]; destruct x; cbn [py_len] in H; try discriminate H;
    cbn [py_len]; rewrite ?H; cbn [bind]; try reflexivity; inversion H; reflexivity.
Qed.

Lemma write_items_ext (w w' : bytes -> Z -> pyval -> res bytes) n xs :
  (forall b p x, w b p x = w' b p x) -> forall b p, write_items w n xs b p = write_items w' n xs b p.
Proof.
  intros E. induction xs as [|x xs IH]; intros b p; cbn [write_items]; [reflexivity|].
  rewrite E. destruct (w' b p x); cbn [bind]; auto.
Qed.

Lemma write_void_items n xs b p : write_items (fun buf _ _ => Ok buf) n xs b p = Ok b.
Proof. revert p. induction xs as [|x xs IH]; intros p; cbn [write_items bind]; auto. Qed.

Lemma upd_tail (a z b : bytes) : blen z = blen b -> upd (a ++ z) (blen a) b = a ++ b.
Proof.
  intros H. pose proof (upd_exact a z b []) as HX. rewrite !app_nil_r in HX. apply HX. exact H.
Qed.

(** the lists of pointers *)
Lemma wr_ptr_list w dst dp xs vs :
  Forall2 (fun x v => wr_ok (fun dst dp => w dst dp x) v /\ blen (content v) mod 8 = 0) xs vs ->
  blen vs < 2 ^ 28 ->
  0 <= dp -> dp mod 8 = 0 -> dp + 8 <= blen dst -> blen dst mod 8 = 0 ->
  blen dst + blen (content (VPtrs vs)) <= 2 ^ 32 ->
  (do (buf, pos) <- alloc_list dst dp LIST_SIZE_PTR (blen xs) (8 * blen xs); write_items w 8 xs buf pos) =
  Ok (upd dst dp (le_enc 8 (ptr_word (VPtrs vs) ((blen dst - dp - 8) / 8))) ++ content (VPtrs vs)).
Proof.
  intros F Hn Hdp Hdp8 Hb Hd8 Hl. pose proof (blen_nonneg vs).
  assert (El : blen xs = blen vs) by (apply Forall2_length in F; unfold blen; congruence).
  rewrite El. change LIST_SIZE_PTR with 6. rewrite alloc_list_in by lia. cbn [bind ptr_word].
  replace (8 * ((8 * blen vs + 7) / 8)) with (8 * blen vs) by lia.
  rewrite content_ptrs in *. rewrite blen_app, blen_ptr_words, blen_vcs_of in Hl. nonneg.
  set (u := le_enc 8 _).
  assert (Hw8 : blen u = 8) by (unfold u; apply blen_le_enc).
  assert (Hu : blen (upd dst dp u) = blen dst) by (apply blen_upd; lia).
  rewrite (write_ptr_items w xs vs F); rewrite ?blen_app, ?Hu, ?blen_zeros; try lia.
  f_equal. rewrite <- Hu at 1. rewrite upd_tail by (rewrite blen_ptr_words, blen_vcs_of, blen_zeros; lia).
  rewrite <- app_assoc. match goal with |- context [ptr_words _ ?o] => replace o with (blen vs - 1) by lia end.
  reflexivity.
Qed.

Lemma list_max_forall {A} (f : A -> nat) l n : (list_max (map f l) <= n)%nat -> Forall (fun x => f x <= n)%nat l.
Proof.
  induction l as [|x l IH]; intros H; constructor; cbn [map] in H; rewrite list_max_cons in H; [lia|].
  apply IH. lia.
Qed.

Lemma wr_scalar_list f w items zs dst dp :
  Forall2 (wr_scalar f w) items zs ->
  limv (VList (tag_of f) (blen items) (concat (map (fenc f) zs))) ->
  wfv (VList (tag_of f) (blen items) (concat (map (fenc f) zs))) ->
  0 <= dp -> dp mod 8 = 0 -> dp + 8 <= blen dst -> blen dst mod 8 = 0 ->
  blen dst + blen (content (VList (tag_of f) (blen items) (concat (map (fenc f) zs)))) <= 2 ^ 32 ->
  (do (buf, pos) <- alloc_list dst dp (tag_of f) (blen items) (fsize f * blen items); write_items w (fsize f) items buf pos) =
  Ok (upd dst dp (le_enc 8 (ptr_word (VList (tag_of f) (blen items) (concat (map (fenc f) zs))) ((blen dst - dp - 8) / 8))) ++
      content (VList (tag_of f) (blen items) (concat (map (fenc f) zs)))).
Proof.
  intros F L WF Hdp Hdp8 Hb Hd8 Hl. pose proof (blen_nonneg items). apply (proj1 (vall_vlist _ _ _ _)) in L. cbn [lim1] in L.
  assert (El : blen items = blen zs) by (apply Forall2_length in F; unfold blen; congruence).
  pose proof (fsize_pos f) as Hfs.
  rewrite alloc_list_in; [|lia|lia|destruct f; cbn; lia|lia|nia]. cbn [bind ptr_word content].
  set (u := le_enc 8 _).
  assert (Hw8 : blen u = 8) by (unfold u; apply blen_le_enc).
  assert (Hu : blen (upd dst dp u) = blen dst) by (apply blen_upd; lia).
  assert (Hcat : blen (concat (map (fenc f) zs)) = fsize f * blen zs).
  { apply (proj1 (vall_vlist _ _ _ _)) in WF. cbn [wf1] in WF. rewrite tag_of_bytes in WF. rewrite <- El. apply WF. }
  set (body := concat (map (fenc f) zs)) in *. unfold pad8.
  replace (8 * ((fsize f * blen items + 7) / 8)) with (blen body + (- blen body) mod 8) by lia.
  rewrite zeros_add by lia. rewrite app_assoc.
  assert (Z0 : 0 <= fsize f * blen zs) by nia.
  rewrite (write_prim_items f w items zs F); rewrite ?blen_app, ?Hu, ?blen_zeros; try lia.
  fold body. f_equal.
  pose proof (upd_exact (upd dst dp u) (zeros (blen body)) body (zeros (- blen body mod 8))) as HX.
  rewrite <- app_assoc. rewrite <- Hu at 1. apply HX. rewrite blen_zeros; lia.
Qed.

Lemma wr_list fuel t : forall x v,
  list_val t x v -> limv v -> (2 * vdepth v <= fuel)%nat ->
  wr_ok (fun dst dp => copy_from_list fuel t dst dp x) v.
Proof.
  induction t as [| |f|dbl|ds ps|add|t IH]; intros x v LV L Hf dst dp Hdp Hdp8 Hb Hd8 Hl;
    pose proof (list_val_wf _ _ _ LV L) as WF;
    (destruct LV as [[-> ->]|(items & Hn & Hi & H)]; [apply wr_null; assumption|]);
    rewrite (copy_list_seq _ _ _ _ _ _ Hn), Hi; pose proof (blen_nonneg items);
    cbn [it_length it_size_tag].
  - subst v. apply (proj1 (vall_vlist _ _ _ _)) in L. cbn [lim1] in L.
    change LIST_SIZE_VOID with 0. rewrite alloc_list_in by lia. cbn [bind].
    rewrite write_void_items. cbn [ptr_word content]. reflexivity.
  - contradiction.
  - destruct H as (zs & F & ->). apply int_scalars in F.
    assert (Et : (if fsize f =? 1 then LIST_SIZE_8 else if fsize f =? 2 then LIST_SIZE_16
                  else if fsize f =? 4 then LIST_SIZE_32 else LIST_SIZE_64) = tag_of f)
      by (destruct f; reflexivity).
    rewrite Et. cbn [bind]. apply wr_scalar_list; assumption.
  - destruct H as (bs & F & V). apply (float_list_val dbl items bs v F) in V. subst v. apply (float_scalars dbl) in F.
    assert (Et : (if dbl then LIST_SIZE_64 else LIST_SIZE_32) = tag_of (float_fmt dbl)) by (destruct dbl; reflexivity).
    rewrite Et. cbn [bind]. apply wr_scalar_list; assumption.
  - destruct H as (Hds & Hps & Hln & its & F & ->). apply (proj1 (vall_comp _ _ _ _ _)) in L.
    destruct L as [L1 L2]. cbn [lim1] in L1. change (blen (@nil byte)) with 0 in *. change (0 / 8) with 0 in *.
    assert (El : blen items = blen its) by (apply Forall2_length in F; unfold blen; congruence).
    rewrite El in *. clear El.
    assert (His : Forall (fun it => blen (fst it) = 8 * ds /\ blen (snd it) = ps) its).
    { clear -F. induction F as [|x [d vs] xs its (o' & _ & O & E1 & E2) Hr IH]; constructor; [|exact IH].
      destruct (obj_sizes _ _ _ (proj1 O)). cbn [fst snd] in *. lia. }
    set (IS := (ds + ps) * blen its) in *. assert (HIS : 0 <= IS) by (unfold IS; nia).
    change LIST_SIZE_COMPOSITE with 7. replace ((ds + ps) * 8 * blen its) with (8 * IS) by (unfold IS; lia).
    rewrite alloc_list_in by lia. cbn [bind ptr_word].
    change (blen (@nil byte)) with 0 in *. change (0 / 8) with 0 in *. fold IS. rewrite Z.add_0_r.
    set (u := le_enc 8 (w_list _ _ _)).
    assert (Hw8 : blen u = 8) by (unfold u; apply blen_le_enc).
    assert (Hu : blen (upd dst dp u) = blen dst) by (apply blen_upd; lia).
    replace (8 * ((8 * IS + 8 + 7) / 8)) with (8 + 8 * IS) by lia. rewrite zeros_add by lia.
    rewrite new_struct_spec by lia. 
    pose proof (w_struct_q (blen its) ds ps ltac:(lia) ltac:(lia)) as Hq.
    rewrite write_int64_in; [|lia|lia|rewrite !blen_app, Hu, !blen_zeros; lia]. cbn [bind].
    pose proof (upd_exact (upd dst dp u) (zeros 8) (le_enc 8 (w_struct (blen its) ds ps)) (zeros (8 * IS))) as HX.
    rewrite Hu in HX. rewrite HX by (rewrite blen_zeros, blen_le_enc; lia). clear HX.
    rewrite content_comp in *. change (blen (@nil byte)) with 0 in *. change (0 / 8) with 0 in *.
    cbn [app] in *. fold IS in Hl |- *. rewrite Z.add_0_r in *.
    rewrite !blen_app, blen_le_enc in Hl.
    rewrite blen_item_words in Hl by (apply ics_of_sizes; exact His). rewrite blen_ics_of in Hl. fold IS in Hl. nonneg.
    set (tg := le_enc 8 (w_struct (blen its) ds ps)) in *.
    assert (Htg : blen tg = 8) by (unfold tg; apply blen_le_enc).
    rewrite (write_struct_items fuel ds ps items its); try assumption; try lia;
      rewrite ?blen_app, ?Hu, ?Htg, ?blen_zeros; fold IS; try lia.
    + rewrite app_assoc. replace (blen dst + 8) with (blen (upd dst dp u ++ tg)) by (rewrite blen_app; lia).
      rewrite upd_tail.
      2:{ rewrite blen_zeros by lia. rewrite blen_item_words by (apply ics_of_sizes; exact His).
          rewrite blen_ics_of. reflexivity. }
      rewrite <- !app_assoc. do 5 f_equal. rewrite !blen_app. lia.
    + cbn [vdepth] in Hf.
      eapply Forall_impl; [|apply (list_max_forall (fun it : bytes * list value => list_max (map vdepth (snd it)))); apply le_n].
      intros it Hit. cbn beta in Hit. lia.
    + rewrite app_assoc. replace (blen dst + 8) with (blen (upd dst dp u ++ tg)) by (rewrite blen_app; lia).
      rewrite sub_app2 by (rewrite ?blen_app, ?blen_zeros; lia). rewrite Z.sub_diag.
      apply sub_zeros; lia.
  - destruct H as (Ha & vs & F & ->). apply (proj1 (vall_ptrs _ _)) in L, WF. destruct L as [L1 L2]. cbn [lim1] in L1.
    destruct WF as [_ WF].
    rewrite <- (wr_ptr_list (fun buf pos x => do s <- as_bytes x;
        do (buf, _) <- (if negb (add =? 0) then alloc_text buf pos s else alloc_data buf pos s); Ok buf) dst dp items vs);
      try assumption.
    + destruct (alloc_list dst dp LIST_SIZE_PTR (blen items) (8 * blen items)) as [[b p]|e]; cbn [bind]; [|reflexivity].
      apply write_items_ext. intros b' p' x'. destruct (as_bytes x') as [s'|]; cbn [bind]; [|reflexivity].
      destruct (add =? 0); reflexivity.
    + clear -F L2 WF. induction F as [|x v xs vs Hx Hr IH]; constructor; inversion L2; inversion WF; subst; auto.
      split; [|apply content_mod; assumption]. apply wr_text; assumption.
  - destruct H as (vs & F & ->). apply (proj1 (vall_ptrs _ _)) in L, WF. destruct L as [L1 L2]. cbn [lim1] in L1.
    destruct WF as [_ WF]. cbn [vdepth] in Hf.
    rewrite <- (wr_ptr_list (fun buf pos x => copy_from_list fuel t buf pos x) dst dp items vs); try assumption.
    + destruct (alloc_list dst dp LIST_SIZE_PTR (blen items) (8 * blen items)) as [[b p]|e]; reflexivity.
    + assert (FD : Forall (fun v => vdepth v <= list_max (map vdepth vs))%nat vs) by (apply list_max_forall; apply le_n).
      assert (FD' : Forall (fun v => 2 * vdepth v <= fuel)%nat vs)
        by (eapply Forall_impl; [|exact FD]; intros; cbn beta in *; lia).
      clear -F L2 WF FD' IH. induction F as [|x v xs vs Hx Hr IH']; constructor; inversion L2; inversion WF; inversion FD'; subst; auto.
      split; [|apply content_mod; assumption]. apply IH; assumption.
Qed.

(** ** reading it back *)

Lemma sub_concat f zs : forall i z, nth_error zs i = Some z ->
  sub (concat (map (fenc f) zs)) (Z.of_nat i * fsize f) (fsize f) = fenc f z.
Proof.
  pose proof (fsize_pos f) as Hf.
  induction zs as [|a zs IH]; intros [|i] z H; cbn [nth_error] in H; try discriminate; cbn [map concat].
  - injection H as ->. change (Z.of_nat 0 * fsize f) with 0.
    rewrite sub_app1 by (rewrite ?blen_fenc; lia). rewrite <- (blen_fenc f z) at 1. apply sub_all.
  - assert (Hl : (i < length zs)%nat) by (apply nth_error_Some; congruence).
    assert (Hcat : blen (concat (map (fenc f) zs)) = fsize f * blen zs).
    { clear. induction zs as [|z zs IH]; [unfold blen; cbn [map concat length]; lia|].
      cbn [map concat]. rewrite blen_app, blen_cons, blen_fenc, IH. lia. }
    unfold blen in Hcat at 2.
    assert (Z.of_nat (S i) * fsize f = fsize f + Z.of_nat i * fsize f) by lia.
    assert (Z.of_nat i * fsize f + fsize f <= fsize f * Z.of_nat (length zs)) by nia.
    rewrite sub_app2 by (rewrite ?blen_fenc; nia). rewrite blen_fenc.
    replace (Z.of_nat (S i) * fsize f - fsize f) with (Z.of_nat i * fsize f) by lia. apply IH. exact H.
Qed.

Lemma Forall2_nth {A B} (R : A -> B -> Prop) l l' i a : Forall2 R l l' -> nth_error l i = Some a ->
  exists b, nth_error l' i = Some b /\ R a b.
Proof.
  intros H. revert i. induction H as [|x y l l' Hxy Hr IH]; intros [|i] Hi; cbn [nth_error] in *; try discriminate.
  - injection Hi as <-. eauto.
  - auto.
Qed.

Lemma v_ptr_nth vs i v : nth_error vs i = Some v -> v_ptr vs (Z.of_nat i) = v.
Proof. intros H. unfold v_ptr. rewrite Nat2Z.id. apply nth_error_nth. exact H. Qed.

Lemma same_list_ok t : forall x v l,
  list_val t x v -> lobj_den l v -> l_it l = t -> same_list t x l.
Proof.
  induction t as [| |f|dbl|ds ps|add|t IH]; intros x v l LV LD LT;
    destruct (lobj_den_attrs _ _ LD) as [C A];
    (destruct LV as [[-> ->]|(items & Hn & Hi & H)]; [left; split; [reflexivity|exact C]|]);
    right; exists items; (split; [exact Hi|]).
  - subst v. split; [exact C|]. intros i x' Hx.
    assert (Hlt : (i < length items)%nat) by (apply nth_error_Some; congruence).
    destruct (l_getitem_spec l _ (Z.of_nat i) LD) as [G _]. cbn [vcount] in G. rewrite G.
    unfold v_index, blen. replace ((0 <=? Z.of_nat i) && (Z.of_nat i <? Z.of_nat (length items))) with true by (symmetry; lia).
    unfold read_item. rewrite LT. reflexivity.
  - contradiction.
  - destruct H as (zs & F & ->). split; [exact C|]. intros i x' Hx.
    assert (Hlt : (i < length items)%nat) by (apply nth_error_Some; congruence).
    destruct (Forall2_nth _ _ _ _ _ F Hx) as (z & Hz & Hxz & Hin).
    exists z. split; [destruct Hxz as [->|(b & -> & ->)]; reflexivity|].
    destruct (l_getitem_spec l _ (Z.of_nat i) LD) as [G _]. cbn [vcount] in G. rewrite G.
    unfold v_index, blen. replace ((0 <=? Z.of_nat i) && (Z.of_nat i <? Z.of_nat (length items))) with true by (symmetry; lia).
    assert (VI : v_item (l_it l) (VList (tag_of f) (blen items) (concat (map (fenc f) zs))) (Z.of_nat i) = Some (VIInt z)).
    { rewrite LT. cbn [v_item]. rewrite Z.eqb_refl. rewrite (sub_concat f zs i z Hz), fdec_fenc by exact Hin. reflexivity. }
    destruct (read_item_spec l _ (Z.of_nat i) _ LD ltac:(cbn [vcount]; unfold blen; lia) VI) as (y & R & Y).
    rewrite R. destruct y; cbn [item_den] in Y; try contradiction. congruence.
  - destruct H as (bs & F & V). apply (float_list_val dbl items bs v F) in V. subst v. split; [exact C|]. intros i x' Hx.
    assert (Hlt : (i < length items)%nat) by (apply nth_error_Some; congruence).
    destruct (Forall2_nth _ _ _ _ _ F Hx) as (b & Hb & Hxb).
    exists b. split; [exact Hxb|].
    destruct (l_getitem_spec l _ (Z.of_nat i) LD) as [G _]. cbn [vcount] in G. rewrite G.
    unfold v_index, blen. replace ((0 <=? Z.of_nat i) && (Z.of_nat i <? Z.of_nat (length items))) with true by (symmetry; lia).
    assert (VI : v_item (l_it l) (VList (tag_of (float_fmt dbl)) (blen items) (concat (map (fenc (float_fmt dbl)) (map (float_bits dbl) bs)))) (Z.of_nat i)
                 = Some (VIFloat dbl (float_bits dbl b))).
    { rewrite LT. assert (N : nth_error (map (float_bits dbl) bs) i = Some (float_bits dbl b)) by (rewrite nth_error_map, Hb; reflexivity).
      pose proof (sub_concat (float_fmt dbl) _ i _ N) as SC. pose proof (fdec_fenc (float_fmt dbl) _ (float_bits_fmt dbl b (proj2 Hxb))) as FD.
      rewrite <- SC in FD. destruct dbl; cbn [v_item float_fmt tag_of Z.eqb Pos.eqb]; do 2 f_equal; exact FD. }
    destruct (read_item_spec l _ (Z.of_nat i) _ LD ltac:(cbn [vcount]; unfold blen; lia) VI) as (y & R & Y).
    rewrite R. destruct y; cbn [item_den] in Y; try contradiction. destruct Y as (-> & ->). reflexivity.
  - destruct H as (Hds & Hps & Hln & its & F & ->). cbn [vcount] in C.
    assert (El : blen its = blen items) by (apply Forall2_length in F; unfold blen; congruence).
    split; [congruence|]. intros i x' Hx.
    assert (Hlt : (i < length items)%nat) by (apply nth_error_Some; congruence).
    destruct (Forall2_nth _ _ _ _ _ F Hx) as ([d vs] & Hit & o & -> & [O _] & _ & _).
    cbn [fst snd] in O.
    destruct (l_getitem_spec l _ (Z.of_nat i) LD) as [G _]. cbn [vcount] in G. rewrite G.
    unfold v_index. unfold blen in *. replace ((0 <=? Z.of_nat i) && (Z.of_nat i <? Z.of_nat (length its))) with true by (symmetry; lia).
    assert (VI : v_item (l_it l) (VComp ds ps its []) (Z.of_nat i) = Some (VIObj d vs)).
    { rewrite LT. cbn [v_item]. rewrite Nat2Z.id, Hit. reflexivity. }
    destruct (read_item_spec l _ (Z.of_nat i) _ LD ltac:(cbn [vcount]; unfold blen; lia) VI) as (y & R & Y).
    rewrite R. destruct y as [| | | |o'| |]; cbn [item_den] in Y; try contradiction.
    exists o, o'. split; [reflexivity|]. split; [reflexivity|]. exists d, vs. split; [exact O|apply Y].
  - destruct H as (Ha & vs & F & ->). cbn [vcount] in C.
    assert (El : blen vs = blen items) by (apply Forall2_length in F; unfold blen; congruence).
    split; [congruence|]. intros i x' Hx.
    assert (Hlt : (i < length items)%nat) by (apply nth_error_Some; congruence).
    destruct (Forall2_nth _ _ _ _ _ F Hx) as (v' & Hv & T).
    destruct (l_getitem_spec l _ (Z.of_nat i) LD) as [G _]. cbn [vcount] in G. rewrite G.
    unfold v_index. unfold blen in *. replace ((0 <=? Z.of_nat i) && (Z.of_nat i <? Z.of_nat (length vs))) with true by (symmetry; lia).
    assert (VI : exists b, as_bytes x' = Ok b /\ v_item (l_it l) (VPtrs vs) (Z.of_nat i) = Some (VIBytes (Ok b))).
    { rewrite LT. cbn [v_item]. rewrite (v_ptr_nth _ _ _ Hv).
      destruct x' as [| | | | |b| | | | |]; cbn [text_val] in T; try contradiction; subst v'.
      - exists None. split; reflexivity.
      - exists (Some b). split; [reflexivity|]. pose proof (blen_nonneg b).
        unfold text_value. destruct Ha as [-> | ->]; cbn [Z.eqb negb vbytes Pos.eqb].
        + replace (blen b + 0) with (blen b) by lia.
          replace ((0 <=? blen b) && (0 <=? 0)) with true by (symmetry; lia).
          rewrite sub_all. reflexivity.
        + replace (blen b + 1 + -1) with (blen b) by lia.
          replace ((0 <=? blen b) && (-1 <=? 0)) with true by (symmetry; lia).
          rewrite sub_app1 by lia. rewrite sub_all. reflexivity. }
    destruct VI as (b & Hb & VI). exists b. split; [exact Hb|].
    destruct (read_item_spec l _ (Z.of_nat i) _ LD ltac:(cbn [vcount]; unfold blen; lia) VI) as (y & R & Y).
    rewrite R. destruct y; cbn [item_den] in Y; try contradiction. congruence.
  - destruct H as (vs & F & ->). cbn [vcount] in C.
    assert (El : blen vs = blen items) by (apply Forall2_length in F; unfold blen; congruence).
    split; [congruence|]. intros i x' Hx.
    assert (Hlt : (i < length items)%nat) by (apply nth_error_Some; congruence).
    destruct (Forall2_nth _ _ _ _ _ F Hx) as (v' & Hv & T).
    destruct (l_getitem_spec l _ (Z.of_nat i) LD) as [G _]. cbn [vcount] in G. rewrite G.
    unfold v_index. unfold blen in *. replace ((0 <=? Z.of_nat i) && (Z.of_nat i <? Z.of_nat (length vs))) with true by (symmetry; lia).
    assert (NS : forall d' vs', v' <> VStruct d' vs').
    { intros d' vs' ->. clear -T. destruct t; cbn [list_val] in T;
        (destruct T as [[_ T]|(it & _ & _ & T)]; [discriminate|]);
        repeat match type of T with exists _, _ => destruct T as [? T] | _ /\ _ => destruct T as [? T] end;
        first [discriminate|contradiction]. }
    assert (VI : v_item (l_it l) (VPtrs vs) (Z.of_nat i) = Some (VIList v')).
    { rewrite LT. cbn [v_item]. rewrite (v_ptr_nth _ _ _ Hv). destruct v'; try reflexivity. exfalso. eapply NS; reflexivity. }
    destruct (read_item_spec l _ (Z.of_nat i) _ LD ltac:(cbn [vcount]; unfold blen; lia) VI) as (y & R & Y).
    rewrite R. destruct y as [| | | | | |l']; cbn [item_den] in Y; try contradiction.
    exists l'. split; [reflexivity|]. destruct Y as (LD' & _ & LT'). rewrite LT in LT'. cbn [inner_type] in LT'.
    eapply IH; eassumption.
Qed.

Lemma list_val_not_struct t x v : list_val t x v -> forall d vs, v <> VStruct d vs.
Proof.
  intros T d' vs' ->. destruct t; cbn [list_val] in T;
    (destruct T as [[_ T]|(it & _ & _ & T)]; [discriminate|]);
    repeat match type of T with exists _, _ => destruct T as [? T] | _ /\ _ => destruct T as [? T] end;
    first [discriminate|contradiction].
Qed.

(** What the getter of a list field gives on an object that has [v] there *)
Lemma list_field_ok o d vs k t x v :
  obj_den o d vs -> 0 <= k -> v_ptr vs k = v -> list_val t x v ->
  (x = PNone /\ o_read_list o (8 * k) t = Ok None) \/
  (x <> PNone /\ exists l, o_read_list o (8 * k) t = Ok (Some l) /\ same_list t x l).
Proof.
  intros O Hk V LV. pose proof (o_read_list_spec o d vs k t O Hk) as R. rewrite V in R.
  pose proof (list_val_not_struct _ _ _ LV) as NS.
  assert (XN : (x = PNone /\ v = VNull) \/ (x <> PNone /\ v <> VNull)).
  { destruct t; cbn [list_val] in LV; (destruct LV as [[-> ->]|(it & Hn & _ & T)]; [left; auto|]); right;
      (split; [intros ->; discriminate Hn|]); intros ->;
      repeat match type of T with exists _, _ => destruct T as [? T] | _ /\ _ => destruct T as [? T] end;
      first [discriminate|contradiction]. }
  destruct XN as [[-> ->]|[Nx Nv]]; [left; auto|right]. split; [exact Nx|].
  assert (E : exists l, o_read_list o (8 * k) t = Ok (Some l) /\ lobj_den l v /\ l_seg l = o_seg o /\ l_it l = t).
  { destruct v; try exact R; try congruence. }
  destruct E as (l & E & LD & _ & LT). exists l. split; [exact E|]. eapply same_list_ok; eassumption.
Qed.
