(** Storing a Python sequence with the strict builder (CopyStrict.v): no
    access outside of the allocated bytes. (The proof is the one of
    CopyListFacts.v again, for the strict operations.) Then: the compiled
    builder does the same. *)
From Verif Require FloatBits.
From Verif Require Import Base Spec BaseFacts Ptr PtrFacts Segment SegmentFacts Builder Copy Enc EncFacts
  EncDen CopyFacts CopyStrict Struct List Query StructFacts ObjFacts CopyList ArgSpec CopyListFacts
  BuilderC BuilderSim BuilderCFacts CRead CReadFacts CCopyList.
From Coq Require Import ZifyBool ZifyNat.
Ltac Zify.zify_post_hook ::= Z.div_mod_to_equations.

(** the compiled as_pointer gives the same word *)
Lemma c_as_pointer_same o d vs : obj_den o d vs -> aligned o -> o_ps o < 2 ^ 15 -> c_as_pointer o 0 = as_pointer o 0.
Proof.
  intros O (A1 & A2 & A3) HP. destruct (obj_sizes _ _ _ O) as [S1 S2]. pose proof O as (E & Hd & Hp & B & D).
  pose proof (bytes_at_some _ _ _ _ B) as (B1 & B2 & B3 & _). unfold slen in *.
  pose proof (den_ptrs_bounds _ _ _ _ D) as (P1 & P2).
  unfold c_as_pointer, as_pointer. rewrite (c_add_small (o_off o)) by lia. rewrite c_add_small by lia.
  replace ((o_off o + - 0 + -8) / 8) with ((o_off o - 0 - 8) / 8) by (f_equal; lia).
  rewrite C_new_struct_signed. apply wrap64_small. rewrite new_struct_spec by lia. unfold w_struct. lia.
Qed.

(** ** The strict operations *)
Definition s_w (f : ifmt) (buf : bytes) (i z : Z) : res bytes :=
  if in_fmtb f z then s_store buf i (fenc f z) else Err MemFault.
Definition s_wint (f : ifmt) (buf : bytes) (i : Z) (x : pyval) : res bytes := do z <- as_int x; s_w f buf i z.
Definition s_wfloat (dbl : bool) (buf : bytes) (i : Z) (x : pyval) : res bytes :=
  match as_float x with
  | Some b => s_w (float_fmt dbl) buf i (if dbl then b else FloatBits.to32 b)
  | None => Err MemFault
  end.
Definition s_text_tz (buf : bytes) (pos : Z) (s : option bytes) (tz : Z) : res (bytes * Z) :=
  match s with
  | None => do buf <- s_w64 buf pos 0; Ok (buf, -1)
  | Some s =>
      do (buf, result) <- s_alist buf pos LIST_SIZE_8 (blen s + tz) (blen s + tz);
      do buf <- s_store buf result s;
      Ok (buf, result)
  end.
Definition s_wtext (nul : bool) (buf : bytes) (pos : Z) (x : pyval) : res bytes :=
  do s <- as_bytes x;
  do (buf, _) <- s_text_tz buf pos s (if nul then 1 else 0);
  Ok buf.
Definition s_winline (fuel : nat) (o : obj) (buf : bytes) (pos : Z) : res bytes :=
  g_inline bytes s_ws s_rd (s_copy fuel) (o_seg o) (c_as_pointer o 0) 0 buf pos.
Definition s_copy_list (fuel : nat) : itype -> bytes -> Z -> pyval -> res bytes :=
  g_copy_list bytes s_w64 s_alist s_wint s_wfloat s_wtext (s_winline fuel).
Lemma s_w_in f buf i z : in_fmt f z -> 0 <= i -> i + fsize f <= blen buf -> s_w f buf i z = Ok (upd buf i (fenc f z)).
Proof.
  intros Hz Hi Hb. unfold s_w. replace (in_fmtb f z) with true by (symmetry; now apply in_fmtb_iff).
  apply s_store_in; [exact Hi|]. rewrite blen_fenc. exact Hb.
Qed.

Lemma s_wr_null : wr_ok (fun dst dp => s_w64 dst dp 0) VNull.
Proof.
  intros dst dp H1 H2 H3 H4 H5. rewrite s_w64_in by lia.
  cbn [ptr_word content]. rewrite app_nil_r. reflexivity.
Qed.

Lemma s_text_list_ok dst dp s tz :
  0 <= tz <= 1 -> blen s + tz < 2 ^ 28 ->
  0 <= dp -> dp + 8 <= blen dst ->
  s_text_tz dst dp (Some s) tz =
  Ok (upd dst dp (le_enc 8 (w_list ((blen dst - dp - 8) / 8) 2 (blen s + tz))) ++ pad8 (s ++ zeros tz), blen dst).
Proof.
  intros Htz Hs Hdp Hb. pose proof (blen_nonneg s). unfold s_text_tz.
  change LIST_SIZE_8 with 2. rewrite s_alist_in by lia. cbn [bind].
  set (w := le_enc 8 _).
  assert (Hw8 : blen w = 8) by (unfold w; apply blen_le_enc).
  assert (Hu : blen (upd dst dp w) = blen dst) by (apply blen_upd; lia).
  rewrite s_store_in by (lens; rewrite ?Hu; lia).
  rewrite upd_app2 by (lens; rewrite ?Hu; lia). rewrite Hu.
  replace (blen dst - blen dst) with 0 by lia. unfold pad8. rewrite blen_app, blen_zeros by lia.
  replace (8 * ((blen s + tz + 7) / 8)) with (blen s + (tz + (- (blen s + tz)) mod 8)) by lia.
  rewrite zeros_add by lia. rewrite zeros_add by lia.
  pose proof (upd_exact [] (zeros (blen s)) s (zeros tz ++ zeros (- (blen s + tz) mod 8))) as HX.
  cbn [app] in HX. change (blen (@nil byte)) with 0 in HX.
  rewrite HX by (rewrite blen_zeros; lia). rewrite <- app_assoc. reflexivity.
Qed.

Lemma s_wr_text nul x v :
  text_val nul x v -> limv v -> wr_ok (fun dst dp => s_wtext nul dst dp x) v.
Proof.
  intros H L. destruct x; cbn [text_val] in H; try contradiction; subst v.
  - intros dst dp H1 H2 H3 H4 H5. unfold s_wtext. cbn [as_bytes bind s_text_tz].
    rewrite s_wr_null by assumption. reflexivity.
  - intros dst dp H1 H2 H3 H4 H5. unfold s_wtext. cbn [as_bytes bind].
    unfold text_value in *. destruct nul.
    + apply (proj1 (vall_vlist _ _ _ _)) in L. cbn [lim1] in L.
      rewrite s_text_list_ok by lia. cbn [bind ptr_word content]. reflexivity.
    + apply (proj1 (vall_vlist _ _ _ _)) in L. cbn [lim1] in L.
      rewrite s_text_list_ok by lia. cbn [bind ptr_word content].
      change (zeros 0) with (@nil byte). rewrite app_nil_r, Z.add_0_r. reflexivity.
Qed.

Lemma s_write_ptr_items (w : bytes -> Z -> pyval -> res bytes) xs vs :
  Forall2 (fun x v => wr_ok (fun dst dp => w dst dp x) v /\ blen (content v) mod 8 = 0) xs vs ->
  forall dst dp,
  0 <= dp -> dp mod 8 = 0 -> dp + 8 * blen vs <= blen dst -> blen dst mod 8 = 0 ->
  blen dst + blen (contents (vcs_of vs)) <= 2 ^ 32 ->
  g_write_items bytes w 8 xs dst dp =
  Ok (upd dst dp (ptr_words (vcs_of vs) ((blen dst - dp - 8) / 8)) ++ contents (vcs_of vs)).
Proof.
  intros H. induction H as [|x v xs vs [Hr Hc] Hp IH]; intros dst dp Hdp Hdp8 Hb Hd8 Hl; cbn [g_write_items bytes].
  - cbn [vcs_of map ptr_words contents snd concat]. change (blen (@nil value)) with 0 in Hb.
    rewrite upd_nil, app_nil_r by lia. reflexivity.
  - rewrite blen_cons in Hb. rewrite blen_contents_cons in Hl. nonneg. pose proof (blen_nonneg vs).
    cbn [vcs_of map ptr_words]. fold (vcs_of vs). rewrite contents_cons.
    rewrite Hr by lia. clear Hr. cbn [bind].
    set (u := le_enc 8 (ptr_word v ((blen dst - dp - 8) / 8))).
    assert (Hw8 : blen u = 8) by (unfold u; apply blen_le_enc).
    assert (Hu : blen (upd dst dp u) = blen dst) by (apply blen_upd; lia).
    rewrite IH; rewrite ?blen_app, ?Hu; try lia.
    set (off' := (blen dst + blen (content v) - (dp + 8) - 8) / 8).
    assert (Hpw : blen (ptr_words (vcs_of vs) off') = 8 * blen vs)
      by (rewrite blen_ptr_words, blen_vcs_of; lia).
    rewrite upd_app1 by (rewrite ?Hpw, ?Hu; lia).
    rewrite <- app_assoc. do 2 f_equal.
    replace (dp + 8) with (dp + blen u) by lia.
    rewrite upd_join by (rewrite ?Hpw; lia).
    do 2 f_equal. unfold off'. f_equal. lia.
Qed.

(** [w] writes the scalar [z] for the argument [x] *)
Definition s_scalar (f : ifmt) (w : bytes -> Z -> pyval -> res bytes) (x : pyval) (z : Z) : Prop :=
  (forall buf pos, w buf pos x = s_w f buf pos z) /\ in_fmt f z.
Lemma s_write_prim_items f w xs zs :
  Forall2 (s_scalar f w) xs zs -> forall dst dp,
  0 <= dp -> dp + fsize f * blen zs <= blen dst ->
  g_write_items bytes w (fsize f) xs dst dp =
  Ok (upd dst dp (concat (map (fenc f) zs))).
Proof.
  intros H. pose proof (fsize_pos f) as Hf.
  induction H as [|x z xs zs [Hx Hz] Hr IH]; intros dst dp Hdp Hb; cbn [g_write_items bytes map concat].
  - change (blen (@nil Z)) with 0 in Hb. rewrite upd_nil by lia. reflexivity.
  - rewrite blen_cons in Hb. pose proof (blen_nonneg zs).
    rewrite Hx. rewrite s_w_in by (try assumption; nia). cbn [bind].
    pose proof (blen_fenc f z) as Hfe.
    assert (Hcat : blen (concat (map (fenc f) zs)) = fsize f * blen zs).
    { clear. induction zs as [|z zs IH]; [unfold blen; cbn [map concat length]; lia|].
      cbn [map concat]. rewrite blen_app, blen_cons, blen_fenc, IH. lia. }
    rewrite IH by (rewrite ?blen_upd; nia).
    rewrite <- Hfe. rewrite upd_join by (rewrite ?Hcat, ?Hfe; nia). reflexivity.
Qed.

Lemma s_int_scalars f xs zs : Forall2 (int_val f) xs zs ->
  Forall2 (s_scalar f (fun buf pos x => do z <- as_int x; s_w f buf pos z)) xs zs.
Proof.
  induction 1 as [|x z xs zs [Hx Hz] Hr IH]; constructor; [|exact IH]. split; [|exact Hz].
  intros buf pos. destruct Hx as [->|(b & -> & ->)]; reflexivity.
Qed.

Lemma s_float_write dbl x b : float_val x b -> s_scalar (float_fmt dbl) (s_wfloat dbl) x (float_bits dbl b).
Proof.
  intros (E & B). split; [|apply float_bits_fmt, B]. intros buf pos. unfold s_wfloat. rewrite E. destruct dbl; reflexivity.
Qed.

Lemma s_float_scalars dbl xs bs : Forall2 float_val xs bs ->
  Forall2 (s_scalar (float_fmt dbl) (s_wfloat dbl)) xs (map (float_bits dbl) bs).
Proof. induction 1; constructor; [apply s_float_write|]; assumption. Qed.
(** struct bodies written one after the other into zeroed memory *)
Lemma s_inline_ok fuel o d vs dst dp :
  obj_val o d vs -> o_ps o < 2 ^ 15 -> Forall limv vs ->
  (2 * list_max (map vdepth vs) <= fuel)%nat ->
  0 <= dp -> dp mod 8 = 0 -> dp + 8 * (o_ds o + o_ps o) <= blen dst -> blen dst mod 8 = 0 ->
  blen dst + blen (contents (vcs_of vs)) <= 2 ^ 32 ->
  sub dst dp (8 * (o_ds o + o_ps o)) = zeros (8 * (o_ds o + o_ps o)) ->
  s_winline fuel o dst dp =
  Ok (upd dst dp (d ++ ptr_words (vcs_of vs) ((blen dst - dp) / 8 - o_ds o - 1)) ++ contents (vcs_of vs)).
Proof.
  intros (O & A) HPS L Hf Hdp Hdp8 Hb Hd8 Hl Hz.
  destruct (obj_sizes _ _ _ O) as [S1 S2]. pose proof O as (E & Hd & Hp & B & D).
  pose proof (bytes_at_some _ _ _ _ B) as (B1 & B2 & B3 & B4 & B5).
  pose proof (den_ptrs_bounds _ _ _ _ D) as (P1 & P2).
  unfold s_winline, g_inline. rewrite (c_as_pointer_same o d vs O A HPS). destruct A as (A1 & A2 & A3). unfold as_pointer. rewrite new_struct_spec by lia.
  set (off := (o_off o - 0 - 8) / 8).
  assert (Hoff : - 2 ^ 29 <= off < 2 ^ 29) by (subst off; lia).
  rewrite deref_spec, data_size_spec, ptrs_size_spec, w_struct_dsize, w_struct_psize by lia.
  assert (T : p_target (w_struct off (o_ds o) (o_ps o)) 0 = o_off o).
  { unfold p_target. rewrite w_struct_off by lia. subst off. lia. }
  rewrite T. rewrite check_bounds_in by lia. cbn [bind]. unfold slen in *.
  rewrite s_ws_in by lia.
  replace (o_ds o * 8) with (8 * o_ds o) by lia. rewrite <- B4. cbn [bind].
  assert (Hu : blen (upd dst dp d) = blen dst) by (apply blen_upd; lia).
  pose proof (proj1 (proj2 (copy_all (o_seg o) ltac:(lia))) _ _ _ D L fuel Hf) as PO.
  rewrite (many_ptrs_ok (s_copy fuel) (o_seg o) (o_off o + 8 * o_ds o) (o_ps o) vs);
    rewrite ?Hu; try assumption; try lia.
  2:{ intros i Hi.
      assert (Hlt : (i < length vs)%nat) by (apply nth_error_Some; congruence).
      unfold blen in S2. rewrite sub_upd_other by lia.
      replace (dp + 8 * o_ds o + 8 * Z.of_nat i) with (dp + (8 * o_ds o + 8 * Z.of_nat i)) by lia.
      rewrite <- (sub_sub dst dp (8 * (o_ds o + o_ps o))) by lia.
      rewrite Hz. apply sub_zeros; lia. }
  f_equal. f_equal. rewrite <- S1. rewrite upd_join by (rewrite ?blen_ptr_words, ?blen_vcs_of; lia).
  f_equal. f_equal. f_equal. lia.
Qed.

Lemma s_write_struct_items fuel ds ps xs its :
  0 <= ds -> 0 <= ps < 2 ^ 15 ->
  Forall2 (fun x it => exists o, x = PObj o /\ obj_val o (fst it) (snd it) /\ o_ds o = ds /\ o_ps o = ps) xs its ->
  Forall (fun it => Forall limv (snd it)) its ->
  Forall (fun it => 2 * list_max (map vdepth (snd it)) <= fuel)%nat its ->
  forall dst dp,
  0 <= dp -> dp mod 8 = 0 -> dp + 8 * ((ds + ps) * blen its) <= blen dst -> blen dst mod 8 = 0 ->
  blen dst + blen (icontents (ics_of its)) <= 2 ^ 32 ->
  sub dst dp (8 * ((ds + ps) * blen its)) = zeros (8 * ((ds + ps) * blen its)) ->
  g_write_items bytes (fun buf pos x => match x with
        | PObj o => s_winline fuel o buf pos
        | _ => Err TypeError end) ((ds + ps) * 8) xs dst dp =
  Ok (upd dst dp (item_words ds ps (ics_of its) ((blen dst - dp) / 8)) ++ icontents (ics_of its)).
Proof.
  intros Hds Hps H. induction H as [|x [d vs] xs its (o & -> & O & E1 & E2) Hr IH];
    intros HL HF dst dp Hdp Hdp8 Hb Hd8 Hl Hz; cbn [g_write_items bytes].
  - cbn [ics_of map item_words icontents concat]. change (blen (@nil (bytes * list value))) with 0 in Hb.
    rewrite upd_nil, app_nil_r by lia. reflexivity.
  - cbn [fst snd] in *. inversion HL as [|? ? HL1 HL2]; subst. inversion HF as [|? ? HF1 HF2]; subst.
    cbn [snd] in HL1, HF1. cbn [ics_of map fst snd] in *. fold (ics_of its) in *.
    rewrite icontents_cons in *. rewrite blen_app in Hl. cbn [item_words].
    rewrite blen_cons in *. pose proof (blen_nonneg its). nonneg.
    set (ds := o_ds o) in *. set (ps := o_ps o) in *.
    set (T' := 8 * ((ds + ps) * blen its)) in *.
    assert (HT : 8 * ((ds + ps) * (blen its + 1)) = 8 * (ds + ps) + T') by (unfold T'; lia).
    assert (HT0 : 0 <= T') by (unfold T'; nia).
    rewrite HT in *.
    destruct (obj_sizes _ _ _ (proj1 O)) as [S1 S2]. fold ds in S1. fold ps in S2.
    assert (Hsub : forall a m, 0 <= a -> 0 <= m -> a + m <= 8 * (ds + ps) + T' ->
              sub dst (dp + a) m = zeros m).
    { intros a m Ha Hm Ham. rewrite <- (sub_sub dst dp (8 * (ds + ps) + T') a m) by lia.
      rewrite Hz. apply sub_zeros; lia. }
    rewrite (s_inline_ok fuel o d vs) by (try assumption; fold ds ps; try lia;
      replace dp with (dp + 0) by lia; apply Hsub; lia).
    fold ds. cbn [bind].
    set (iw0 := d ++ ptr_words (vcs_of vs) ((blen dst - dp) / 8 - ds - 1)).
    assert (Hiw0 : blen iw0 = 8 * (ds + ps))
      by (unfold iw0; rewrite blen_app, blen_ptr_words, blen_vcs_of; lia).
    assert (Hu : blen (upd dst dp iw0) = blen dst) by (apply blen_upd; lia).
    assert (Hcm : blen (contents (vcs_of vs)) mod 8 = 0).
    { apply contents_mod. unfold vcs_of. rewrite Forall_map. cbn [snd].
      pose proof (obj_wf _ _ _ (proj1 O)) as W. apply (proj1 (vall_struct _ _ _)) in W.
      eapply Forall_impl; [|apply W]. intros v Hv. apply content_mod. exact Hv. }
    assert (His : Forall (fun it => blen (fst it) = 8 * ds /\ blen (snd it) = ps) its).
    { clear -Hr. induction Hr as [|x [d vs] xs its (o' & _ & O & E1 & E2) Hr IH]; constructor; [|exact IH].
      destruct (obj_sizes _ _ _ (proj1 O)). cbn [fst snd] in *. lia. }
    replace ((ds + ps) * 8) with (8 * (ds + ps)) at 2 by lia.
    rewrite IH; rewrite ?blen_app, ?Hu; try assumption; try lia.
    2:{ fold T'. rewrite sub_app1 by (rewrite ?Hu; lia).
        rewrite sub_upd_other by lia. apply Hsub; lia. }
    set (iw := item_words ds ps (ics_of its) _).
    assert (Hiw : blen iw = T').
    { unfold iw. rewrite blen_item_words by (apply ics_of_sizes; exact His).
      rewrite blen_ics_of. reflexivity. }
    rewrite upd_app1 by (rewrite ?Hu, ?Hiw; lia).
    rewrite <- app_assoc. do 2 f_equal.
    replace (dp + 8 * (ds + ps)) with (dp + blen iw0) by lia.
    rewrite upd_join by lia. unfold iw0. rewrite <- !app_assoc. do 3 f_equal.
    unfold iw. f_equal. lia.
Qed.

Lemma s_copy_list_seq fuel t dst dp x n :
  py_len x = Ok n ->
  s_copy_list fuel t dst dp x =
  (do (buf, pos) <-
     match t with
     | ITStruct data_size ptrs_size =>
         do (buf, pos) <- s_alist dst dp (it_size_tag t) ((data_size + ptrs_size) * n) (it_length t * n + 8);
         do buf <- s_w64 buf pos (new_struct n data_size ptrs_size);
         Ok (buf, pos + 8)
     | _ => s_alist dst dp (it_size_tag t) n (it_length t * n)
     end;
   do items <- py_iter x;
   g_write_items bytes (fun buf pos x =>
    match t with
    | ITVoid => Ok buf
    | ITBool => Err NotImplementedError
    | ITPrim f => s_wint f buf pos x
    | ITFloat dbl => s_wfloat dbl buf pos x
    | ITStruct _ _ => match x with PObj o => s_winline fuel o buf pos | _ => Err TypeError end
    | ITText additional_size => s_wtext (negb (additional_size =? 0)) buf pos x
    | ITList inner => s_copy_list fuel inner buf pos x
    end) (it_length t) items buf pos).
Proof.
  intros H. unfold s_copy_list. destruct t; cbn [g_copy_list]; destruct x; cbn [py_len] in H; try discriminate H;
    cbn [py_len]; rewrite ?H; cbn [bind]; try reflexivity; inversion H; reflexivity.
Qed.

Lemma s_write_void_items n xs b p : g_write_items bytes (fun buf _ _ => Ok buf) n xs b p = Ok b.
Proof. revert p. induction xs as [|x xs IH]; intros p; cbn [g_write_items bytes bind]; auto. Qed.

Lemma s_wr_ptr_list w dst dp xs vs :
  Forall2 (fun x v => wr_ok (fun dst dp => w dst dp x) v /\ blen (content v) mod 8 = 0) xs vs ->
  blen vs < 2 ^ 28 ->
  0 <= dp -> dp mod 8 = 0 -> dp + 8 <= blen dst -> blen dst mod 8 = 0 ->
  blen dst + blen (content (VPtrs vs)) <= 2 ^ 32 ->
  (do (buf, pos) <- s_alist dst dp LIST_SIZE_PTR (blen xs) (8 * blen xs); g_write_items bytes w 8 xs buf pos) =
  Ok (upd dst dp (le_enc 8 (ptr_word (VPtrs vs) ((blen dst - dp - 8) / 8))) ++ content (VPtrs vs)).
Proof.
  intros F Hn Hdp Hdp8 Hb Hd8 Hl. pose proof (blen_nonneg vs).
  assert (El : blen xs = blen vs) by (apply Forall2_length in F; unfold blen; congruence).
  rewrite El. change LIST_SIZE_PTR with 6. rewrite s_alist_in by lia. cbn [bind ptr_word].
  replace (8 * ((8 * blen vs + 7) / 8)) with (8 * blen vs) by lia.
  rewrite content_ptrs in *. rewrite blen_app, blen_ptr_words, blen_vcs_of in Hl. nonneg.
  set (u := le_enc 8 _).
  assert (Hw8 : blen u = 8) by (unfold u; apply blen_le_enc).
  assert (Hu : blen (upd dst dp u) = blen dst) by (apply blen_upd; lia).
  rewrite (s_write_ptr_items w xs vs F); rewrite ?blen_app, ?Hu, ?blen_zeros; try lia.
  f_equal. rewrite <- Hu at 1. rewrite upd_tail by (rewrite blen_ptr_words, blen_vcs_of, blen_zeros; lia).
  rewrite <- app_assoc. match goal with |- context [ptr_words _ ?o] => replace o with (blen vs - 1) by lia end.
  reflexivity.
Qed.

Lemma s_wr_scalar_list f w items zs dst dp :
  Forall2 (s_scalar f w) items zs ->
  limv (VList (tag_of f) (blen items) (concat (map (fenc f) zs))) ->
  wfv (VList (tag_of f) (blen items) (concat (map (fenc f) zs))) ->
  0 <= dp -> dp mod 8 = 0 -> dp + 8 <= blen dst -> blen dst mod 8 = 0 ->
  blen dst + blen (content (VList (tag_of f) (blen items) (concat (map (fenc f) zs)))) <= 2 ^ 32 ->
  (do (buf, pos) <- s_alist dst dp (tag_of f) (blen items) (fsize f * blen items); g_write_items bytes w (fsize f) items buf pos) =
  Ok (upd dst dp (le_enc 8 (ptr_word (VList (tag_of f) (blen items) (concat (map (fenc f) zs))) ((blen dst - dp - 8) / 8))) ++
      content (VList (tag_of f) (blen items) (concat (map (fenc f) zs)))).
Proof.
  intros F L WF Hdp Hdp8 Hb Hd8 Hl. pose proof (blen_nonneg items). apply (proj1 (vall_vlist _ _ _ _)) in L. cbn [lim1] in L.
  assert (El : blen items = blen zs) by (apply Forall2_length in F; unfold blen; congruence).
  pose proof (fsize_pos f) as Hfs.
  rewrite s_alist_in; [|lia|lia|destruct f; cbn; lia|lia|nia]. cbn [bind ptr_word content].
  set (u := le_enc 8 _).
  assert (Hw8 : blen u = 8) by (unfold u; apply blen_le_enc).
  assert (Hu : blen (upd dst dp u) = blen dst) by (apply blen_upd; lia).
  assert (Hcat : blen (concat (map (fenc f) zs)) = fsize f * blen zs).
  { apply (proj1 (vall_vlist _ _ _ _)) in WF. cbn [wf1] in WF. rewrite tag_of_bytes in WF. rewrite <- El. apply WF. }
  set (body := concat (map (fenc f) zs)) in *. unfold pad8.
  replace (8 * ((fsize f * blen items + 7) / 8)) with (blen body + (- blen body) mod 8) by lia.
  rewrite zeros_add by lia. rewrite app_assoc.
  assert (Z0 : 0 <= fsize f * blen zs) by nia.
  rewrite (s_write_prim_items f w items zs F); rewrite ?blen_app, ?Hu, ?blen_zeros; try lia.
  fold body. f_equal.
  pose proof (upd_exact (upd dst dp u) (zeros (blen body)) body (zeros (- blen body mod 8))) as HX.
  rewrite <- app_assoc. rewrite <- Hu at 1. apply HX. rewrite blen_zeros; lia.
Qed.

Lemma s_wr_list fuel t : forall x v,
  list_val t x v -> limv v -> (2 * vdepth v <= fuel)%nat ->
  wr_ok (fun dst dp => s_copy_list fuel t dst dp x) v.
Proof.
  induction t as [| |f|dbl|ds ps|add|t IH]; intros x v LV L Hf dst dp Hdp Hdp8 Hb Hd8 Hl;
    pose proof (list_val_wf _ _ _ LV L) as WF;
    (destruct LV as [[-> ->]|(items & Hn & Hi & H)]; [apply s_wr_null; assumption|]);
    rewrite (s_copy_list_seq _ _ _ _ _ _ Hn), Hi; pose proof (blen_nonneg items);
    cbn [it_length it_size_tag].
  - subst v. apply (proj1 (vall_vlist _ _ _ _)) in L. cbn [lim1] in L.
    change LIST_SIZE_VOID with 0. rewrite s_alist_in by lia. cbn [bind].
    rewrite s_write_void_items. cbn [ptr_word content]. reflexivity.
  - contradiction.
  - destruct H as (zs & F & ->). apply s_int_scalars in F.
    assert (Et : (if fsize f =? 1 then LIST_SIZE_8 else if fsize f =? 2 then LIST_SIZE_16
                  else if fsize f =? 4 then LIST_SIZE_32 else LIST_SIZE_64) = tag_of f)
      by (destruct f; reflexivity).
    rewrite Et. cbn [bind]. apply s_wr_scalar_list; assumption.
  - destruct H as (bs & F & V). apply (float_list_val dbl items bs v F) in V. subst v. apply (s_float_scalars dbl) in F.
    assert (Et : (if dbl then LIST_SIZE_64 else LIST_SIZE_32) = tag_of (float_fmt dbl)) by (destruct dbl; reflexivity).
    rewrite Et. cbn [bind]. apply s_wr_scalar_list; assumption.
  - destruct H as (Hds & Hps & Hln & its & F & ->). apply (proj1 (vall_comp _ _ _ _ _)) in L.
    destruct L as [L1 L2]. cbn [lim1] in L1. change (blen (@nil byte)) with 0 in *. change (0 / 8) with 0 in *.
    assert (El : blen items = blen its) by (apply Forall2_length in F; unfold blen; congruence).
    rewrite El in *. clear El.
    assert (His : Forall (fun it => blen (fst it) = 8 * ds /\ blen (snd it) = ps) its).
    { clear -F. induction F as [|x [d vs] xs its (o' & _ & O & E1 & E2) Hr IH]; constructor; [|exact IH].
      destruct (obj_sizes _ _ _ (proj1 O)). cbn [fst snd] in *. lia. }
    set (IS := (ds + ps) * blen its) in *. assert (HIS : 0 <= IS) by (unfold IS; nia).
    change LIST_SIZE_COMPOSITE with 7. replace ((ds + ps) * 8 * blen its) with (8 * IS) by (unfold IS; lia).
    rewrite s_alist_in by lia. cbn [bind ptr_word].
    change (blen (@nil byte)) with 0 in *. change (0 / 8) with 0 in *. fold IS. rewrite Z.add_0_r.
    set (u := le_enc 8 (w_list _ _ _)).
    assert (Hw8 : blen u = 8) by (unfold u; apply blen_le_enc).
    assert (Hu : blen (upd dst dp u) = blen dst) by (apply blen_upd; lia).
    replace (8 * ((8 * IS + 8 + 7) / 8)) with (8 + 8 * IS) by lia. rewrite zeros_add by lia.
    rewrite new_struct_spec by lia. 
    pose proof (w_struct_q (blen its) ds ps ltac:(lia) ltac:(lia)) as Hq.
    rewrite s_w64_in; [|lia|lia|rewrite !blen_app, Hu, !blen_zeros; lia]. cbn [bind].
    pose proof (upd_exact (upd dst dp u) (zeros 8) (le_enc 8 (w_struct (blen its) ds ps)) (zeros (8 * IS))) as HX.
    rewrite Hu in HX. rewrite HX by (rewrite blen_zeros, blen_le_enc; lia). clear HX.
    rewrite content_comp in *. change (blen (@nil byte)) with 0 in *. change (0 / 8) with 0 in *.
    cbn [app] in *. fold IS in Hl |- *. rewrite Z.add_0_r in *.
    rewrite !blen_app, blen_le_enc in Hl.
    rewrite blen_item_words in Hl by (apply ics_of_sizes; exact His). rewrite blen_ics_of in Hl. fold IS in Hl. nonneg.
    set (tg := le_enc 8 (w_struct (blen its) ds ps)) in *.
    assert (Htg : blen tg = 8) by (unfold tg; apply blen_le_enc).
    rewrite (s_write_struct_items fuel ds ps items its); try assumption; try lia;
      rewrite ?blen_app, ?Hu, ?Htg, ?blen_zeros; fold IS; try lia.
    + rewrite app_assoc. replace (blen dst + 8) with (blen (upd dst dp u ++ tg)) by (rewrite blen_app; lia).
      rewrite upd_tail.
      2:{ rewrite blen_zeros by lia. rewrite blen_item_words by (apply ics_of_sizes; exact His).
          rewrite blen_ics_of. reflexivity. }
      rewrite <- !app_assoc. do 5 f_equal. rewrite !blen_app. lia.
    + cbn [vdepth] in Hf.
      eapply Forall_impl; [|apply (list_max_forall (fun it : bytes * list value => list_max (map vdepth (snd it)))); apply le_n].
      intros it Hit. cbn beta in Hit. lia.
    + rewrite app_assoc. replace (blen dst + 8) with (blen (upd dst dp u ++ tg)) by (rewrite blen_app; lia).
      rewrite sub_app2 by (rewrite ?blen_app, ?blen_zeros; lia). rewrite Z.sub_diag.
      apply sub_zeros; lia.
  - destruct H as (Ha & vs & F & ->). apply (proj1 (vall_ptrs _ _)) in L, WF. destruct L as [L1 L2]. cbn [lim1] in L1.
    destruct WF as [_ WF].
    rewrite <- (s_wr_ptr_list (s_wtext (negb (add =? 0))) dst dp items vs); try assumption; [reflexivity|].
    clear -F L2 WF. induction F as [|x v xs vs Hx Hr IH]; constructor; inversion L2; inversion WF; subst; auto.
    split; [|apply content_mod; assumption]. apply s_wr_text; assumption.
  - destruct H as (vs & F & ->). apply (proj1 (vall_ptrs _ _)) in L, WF. destruct L as [L1 L2]. cbn [lim1] in L1.
    destruct WF as [_ WF]. cbn [vdepth] in Hf.
    rewrite <- (s_wr_ptr_list (fun buf pos x => s_copy_list fuel t buf pos x) dst dp items vs); try assumption.
    + destruct (s_alist dst dp LIST_SIZE_PTR (blen items) (8 * blen items)) as [[b p]|e]; reflexivity.
    + assert (FD : Forall (fun v => vdepth v <= list_max (map vdepth vs))%nat vs) by (apply list_max_forall; apply le_n).
      assert (FD' : Forall (fun v => 2 * vdepth v <= fuel)%nat vs)
        by (eapply Forall_impl; [|exact FD]; intros; cbn beta in *; lia).
      clear -F L2 WF FD' IH. induction F as [|x v xs vs Hx Hr IH']; constructor; inversion L2; inversion WF; inversion FD'; subst; auto.
      split; [|apply content_mod; assumption]. apply IH; assumption.
Qed.


(** ** Two builders whose operations correspond store the same lists *)
Section sim.
  Context {A B : Type} (R : A -> B -> Prop).
  Context (w64 : A -> Z -> Z -> res A) (al : A -> Z -> Z -> Z -> Z -> res (A * Z))
          (wi : ifmt -> A -> Z -> pyval -> res A) (wf wt : bool -> A -> Z -> pyval -> res A) (wl : obj -> A -> Z -> res A).
  Context (w64' : B -> Z -> Z -> res B) (al' : B -> Z -> Z -> Z -> Z -> res (B * Z))
          (wi' : ifmt -> B -> Z -> pyval -> res B) (wf' wt' : bool -> B -> Z -> pyval -> res B) (wl' : obj -> B -> Z -> res B).
  Hypothesis Hw64 : forall a b i v, R a b -> sim1 R (w64 a i v) (w64' b i v).
  Hypothesis Hal : forall a b p t c l, R a b -> sim2 R (al a p t c l) (al' b p t c l).
  Hypothesis Hwi : forall a b f i x, R a b -> sim1 R (wi f a i x) (wi' f b i x).
  Hypothesis Hwf : forall a b d i x, R a b -> sim1 R (wf d a i x) (wf' d b i x).
  Hypothesis Hwt : forall a b d i x, R a b -> sim1 R (wt d a i x) (wt' d b i x).
  Hypothesis Hwl : forall a b o i, R a b -> sim1 R (wl o a i) (wl' o b i).

  Lemma write_items_sim w w' n xs :
    (forall a b i x, R a b -> sim1 R (w a i x) (w' b i x)) ->
    forall a b i, R a b -> sim1 R (g_write_items A w n xs a i) (g_write_items B w' n xs b i).
  Proof.
    intros H. induction xs as [|x xs IH]; intros a b i Hab; cbn [g_write_items]; [apply sim1_ok, Hab|].
    apply sim1_bind; [apply H, Hab|]. intros. apply IH. assumption.
  Qed.

  Lemma copy_list_sim t : forall a b i x, R a b ->
    sim1 R (g_copy_list A w64 al wi wf wt wl t a i x) (g_copy_list B w64' al' wi' wf' wt' wl' t b i x).
  Proof.
    induction t as [| |f|dbl|ds ps|add|t IH]; intros a b i x H;
      (destruct x; cbn [g_copy_list]; [ |apply Hw64, H|..]);
      (apply sim_same; intros n _; apply sim2_bind;
        [first [apply Hal, H
               |intros a1 r1 E; apply bind_ok in E as ([a2 r2] & E1 & E2); destruct (Hal _ _ _ _ _ _ H _ _ E1) as (b2 & -> & R2); cbn [bind];
                apply bind_ok in E2 as (a3 & E3 & E4); destruct (Hw64 _ _ _ _ R2 _ E3) as (b3 & -> & R3); cbn [bind];
                apply ok_inj in E4; assert (a3 = a1) by congruence; assert (r2 + 8 = r1) by congruence; subst; eauto]
        |intros a1 b1 r R1; apply sim_same; intros items _; apply write_items_sim; [|exact R1]; clear - Hwi Hwf Hwt Hwl IH || clear - Hwi Hwf Hwt Hwl;
         intros a b j y H; first [apply sim1_ok; exact H|apply Hwi, H|apply Hwf, H|apply Hwt, H|apply IH, H
                                 |intros ? E; discriminate E|destruct y; first [apply Hwl, H|intros ? E; discriminate E]]]).
  Qed.
End sim.

(** ** The compiled builder *)
Lemma sim_store buf st i b : Rc buf st -> sim1 Rc (s_store buf i b) (c_store st i b).
Proof.
  intros H a E. unfold s_store in E. destruct ((0 <=? i) && (i + blen b <=? blen buf)) eqn:C; [|discriminate].
  apply ok_inj in E. subst a. apply Rc_store; [exact H| |]; lia.
Qed.
Lemma sim_w f buf st i z : Rc buf st -> sim1 Rc (s_w f buf i z) (c_write f st i z).
Proof.
  intros H. unfold s_w, c_write. destruct (in_fmtb f z); [|intros a E; discriminate]. apply sim_store, H.
Qed.

Section compiled.
  Variables (junk : nat -> byte) (trunc : Z -> res Z) (fuel : nat).

  Lemma sim_wint f buf st i x : Rc buf st -> sim1 Rc (s_wint f buf i x) (c_wint trunc f st i x).
  Proof.
    intros H. unfold s_wint, c_wint. destruct x; cbn [as_int c_as_int bind]; try (intros a E; discriminate E); apply sim_w, H.
  Qed.
  Lemma sim_wfloat dbl buf st i x : Rc buf st -> sim1 Rc (s_wfloat dbl buf i x) (c_wfloat dbl st i x).
  Proof.
    intros H. unfold s_wfloat, c_wfloat. destruct (as_float x) as [b|]; [|intros a E; discriminate E].
    unfold s_w. destruct (in_fmtb _ _); [|intros a E; discriminate E]. apply sim_store, H.
  Qed.
  Lemma sim_wtext nul buf st i x : Rc buf st -> sim1 Rc (s_wtext nul buf i x) (c_wtext junk nul st i x).
  Proof.
    intros H. unfold s_wtext, c_wtext. apply sim_same. intros s _.
    apply sim2_bind; [|intros a b r R; apply sim1_ok, R].
    destruct s as [s|]; cbn [s_text_tz c_alloc_text_tz]; intros a r E.
    - apply bind_ok in E as ([a2 r2] & E1 & E2). destruct (sim_alist junk _ _ _ _ _ _ H _ _ E1) as (st2 & -> & R2). cbn [bind].
      apply bind_ok in E2 as (a3 & E3 & E4). destruct (sim_store _ _ _ _ R2 _ E3) as (st3 & -> & R3). cbn [bind].
      apply ok_inj in E4. assert (a3 = a) by congruence. assert (r2 = r) by congruence. subst. eauto.
    - apply bind_ok in E as (a3 & E3 & E4). destruct (sim_w64 _ _ _ _ H _ E3) as (st3 & -> & R3). cbn [bind].
      apply ok_inj in E4. assert (a3 = a) by congruence. assert (-1 = r) by congruence. subst. eauto.
  Qed.
  Lemma sim_winline o buf st i : Rc buf st -> sim1 Rc (s_winline fuel o buf i) (c_winline junk fuel o st i).
  Proof.
    intros H. unfold s_winline, c_winline, g_inline. apply sim_same. intros _ _.
    apply sim1_bind; [apply sim_ws, H|]. intros a b R. apply many_ptrs_sim; [auto| |exact R].
    intros. apply c_copy_strict. assumption.
  Qed.
  Lemma sim_copy_list t buf st i x : Rc buf st ->
    sim1 Rc (s_copy_list fuel t buf i x) (c_copy_list junk trunc fuel t st i x).
  Proof.
    apply copy_list_sim; intros; [apply sim_w64|apply sim_alist|apply sim_wint|apply sim_wfloat|apply sim_wtext|apply sim_winline]; assumption.
  Qed.

  (** What writing a pointer-sized thing of value [v] must do *)
  Definition wrc_ok (w : cb -> Z -> res cb) (v : value) : Prop :=
    forall dst dp st,
      0 <= dp -> dp mod 8 = 0 -> dp + 8 <= blen dst -> blen dst mod 8 = 0 ->
      blen dst + blen (content v) <= 2 ^ 32 -> Rc dst st ->
      exists st', w st dp = Ok st' /\
        Rc (upd dst dp (le_enc 8 (ptr_word v ((blen dst - dp - 8) / 8))) ++ content v) st'.
  Lemma wr_wrc (w : bytes -> Z -> res bytes) (w' : cb -> Z -> res cb) v :
    wr_ok w v -> (forall buf st i, Rc buf st -> sim1 Rc (w buf i) (w' st i)) -> wrc_ok w' v.
  Proof. intros H S dst dp st H1 H2 H3 H4 H5 R. exact (S _ _ _ R _ (H dst dp H1 H2 H3 H4 H5)). Qed.

  Lemma wrc_text nul x v : text_val nul x v -> limv v -> wrc_ok (fun st i => c_wtext junk nul st i x) v.
  Proof. intros T L. eapply wr_wrc; [exact (s_wr_text nul x v T L)|]. intros. apply sim_wtext. assumption. Qed.
  Lemma wrc_list t x v : list_val t x v -> limv v -> (2 * vdepth v <= fuel)%nat ->
    wrc_ok (fun st i => c_copy_list junk trunc fuel t st i x) v.
  Proof. intros T L F. eapply wr_wrc; [exact (s_wr_list fuel t x v T L F)|]. intros. apply sim_copy_list. assumption. Qed.
  Lemma wrc_struct x v : struct_val x v -> limv v -> (2 * vdepth v <= fuel)%nat ->
    wrc_ok (fun st i => c_copy_struct_arg junk fuel st i x) v.
  Proof.
    intros H L Hf. destruct x; cbn [struct_val] in H; try contradiction.
    - subst v. eapply wr_wrc; [exact s_wr_null|]. intros. apply sim_w64. assumption.
    - destruct H as (d & vs & (O & A) & ->).
      pose proof (proj1 (vall_struct _ _ _) L) as (L1 & _). cbn [lim1] in L1.
      destruct (obj_sizes _ _ _ O) as [S1 S2].
      eapply (wr_wrc (fun buf i => s_copy fuel (o_seg o) (c_as_pointer o 0) 0 buf i)); [|intros; apply c_copy_strict; assumption].
      rewrite (c_as_pointer_same o d vs O A ltac:(lia)).
      intros dst dp H1 H2 H3 H4 H5.
      destruct (Z.eq_dec (o_ds o + o_ps o) 0) as [E0|NE].
      + pose proof O as (_ & Hd & Hp & _). destruct fuel as [|f]; [cbn in Hf; lia|].
        unfold s_copy. cbn [g_copy]. unfold as_pointer. assert (o_ds o = 0 /\ o_ps o = 0) as [E1 E2] by lia. rewrite E1, E2.
        rewrite kind_spec, new_struct_spec, w_struct_kind by lia. cbn [Z.eqb STRUCT]. unfold g_struct.
        rewrite data_size_spec, ptrs_size_spec, w_struct_dsize, w_struct_psize by lia.
        change (0 + 0 =? 0) with true. cbv iota.
        assert (d = []) by (apply blen_0_nil; lia). assert (vs = []) by (apply blen_0_nil; lia). subst d vs.
        change (new_struct (-1) 0 0) with (w_struct (-1) 0 0). rewrite s_w64_in; [|cbn; lia|lia|lia].
        change (content (VStruct [] [])) with (@nil byte). rewrite app_nil_r. reflexivity.
      + destruct (as_pointer_den o d vs O A NE) as (D & N & K).
        assert (BS : blen (sbuf (o_seg o)) < 2 ^ 60) by (destruct A as (_ & _ & A); unfold slen in A; lia).
        apply (proj1 (copy_all (o_seg o) BS) _ _ _ D); try assumption; rewrite K; [discriminate|].
        cbn [Z.eqb]. lia.
  Qed.
End compiled.
