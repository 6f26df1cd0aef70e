(** The copy of a well-formed object is its canonical encoding. *)
From Verif Require Import Base BaseFacts Spec Ptr PtrFacts Segment Builder Copy Enc EncFacts SegmentFacts.
From Coq Require Import ZifyBool ZifyNat.

Ltac Zify.zify_post_hook ::= Z.div_mod_to_equations.

Lemma fenc_q v : fenc Fq v = le_enc 8 v.
Proof. reflexivity. Qed.

Lemma write_int64_in buf i v :
  - 2 ^ 63 <= v < 2 ^ 63 -> 0 <= i -> i + 8 <= blen buf ->
  write_int64 buf i v = Ok (upd buf i (le_enc 8 v)).
Proof.
  intros Hv Hi Hb. unfold write_int64, b_write.
  rewrite pack_into_in; [rewrite fenc_q; reflexivity| |lia|cbn [fsize]; lia].
  unfold in_fmt, fmin, fmax. cbn [fsigned fsize].
  change (2 ^ (8 * 8 - 1)) with (2 ^ 63). lia.
Qed.

Lemma write_slice_in buf i src start n :
  0 <= i -> 0 <= n -> i + n <= blen buf -> 0 <= start -> start + n <= blen src ->
  write_slice buf i src start n = upd buf i (sub src start n).
Proof.
  intros. unfold write_slice. rewrite (py_slice_in src) by lia.
  replace (start + n - start) with n by lia.
  assert (E : blen (sub src start n) = n) by (apply blen_sub; lia).
  rewrite <- E at 1. apply py_slice_set_in; lia.
Qed.

Lemma w_struct_q off ds ps :
  0 <= ds < 2 ^ 16 -> 0 <= ps < 2 ^ 15 -> 0 <= w_struct off ds ps < 2 ^ 63.
Proof. intros. unfold w_struct. lia. Qed.

Lemma w_list_q off tag n :
  0 <= tag < 8 -> 0 <= n < 2 ^ 28 -> 0 <= w_list off tag n < 2 ^ 63.
Proof. intros. unfold w_list. lia. Qed.

Lemma alloc_struct_in buf pos ds ps :
  0 <= pos -> pos + 8 <= blen buf -> 0 <= ds < 2 ^ 16 -> 0 <= ps < 2 ^ 15 ->
  alloc_struct buf pos ds ps =
  Ok (upd buf pos (le_enc 8 (w_struct ((blen buf - pos - 8) / 8) ds ps)) ++ zeros (8 * (ds + ps)),
      blen buf).
Proof.
  intros Hp Hb Hds Hps. unfold alloc_struct, allocate.
  rewrite new_struct_spec by lia.
  pose proof (w_struct_q ((blen buf - (pos + 8)) / 8) ds ps Hds Hps).
  rewrite write_int64_in by (lens; lia). cbn [bind].
  rewrite upd_app1 by (lens; lia).
  do 2 f_equal. f_equal; [|f_equal; lia]. do 3 f_equal. lia.
Qed.

Lemma alloc_list_in buf pos tag n body :
  0 <= pos -> pos + 8 <= blen buf -> 0 <= tag < 8 -> 0 <= n < 2 ^ 28 -> 0 <= body ->
  alloc_list buf pos tag n body =
  Ok (upd buf pos (le_enc 8 (w_list ((blen buf - pos - 8) / 8) tag n))
        ++ zeros (8 * ((body + 7) / 8)),
      blen buf).
Proof.
  intros Hp Hb Ht Hn Hbd. unfold alloc_list, allocate.
  rewrite round_up_spec, new_list_spec by lia.
  pose proof (w_list_q ((blen buf - (pos + 8)) / 8) tag n Ht Hn).
  rewrite write_int64_in by (lens; lia). cbn [bind].
  rewrite upd_app1 by (lens; lia).
  do 2 f_equal. f_equal. do 3 f_equal. lia.
Qed.

Lemma check_bounds_in src n ofs :
  ofs + n <= slen src -> check_bounds src n ofs = Ok tt.
Proof. intros. unfold check_bounds, slen in *. destruct (_ <? _) eqn:?; [lia|reflexivity]. Qed.

(** ** one level of the copy, for any recursive call *)

(** What the recursive call must do on a pointer [p] at [pos] that denotes [v]. *)
Definition rec_ok (rec : seg -> Z -> Z -> bytes -> Z -> res bytes) (s : seg) (p pos : Z) (v : value) :=
  forall dst dp,
    0 <= dp -> dp mod 8 = 0 -> dp + 8 <= blen dst -> blen dst mod 8 = 0 ->
    blen dst + blen (content v) <= 2 ^ 32 ->
    rec s p pos dst dp =
    Ok (upd dst dp (le_enc 8 (ptr_word v ((blen dst - dp - 8) / 8))) ++ content v).

(** [n] consecutive pointers, all fine for [rec] *)
Inductive ptrs_ok rec s : Z -> nat -> list value -> Prop :=
| po_nil : forall pos, 0 <= pos <= slen s -> ptrs_ok rec s pos 0 []
| po_cons : forall pos n p v vs,
    word_at s pos = Some p ->
    (p = 0 -> v = VNull) -> (p <> 0 -> rec_ok rec s p pos v) ->
    blen (content v) mod 8 = 0 ->
    ptrs_ok rec s (pos + 8) n vs ->
    ptrs_ok rec s pos (S n) (v :: vs).

Lemma ptrs_ok_bounds rec s pos n vs :
  ptrs_ok rec s pos n vs -> 0 <= pos /\ pos + 8 * Z.of_nat n <= slen s.
Proof.
  intros H. induction H as [pos H|pos n p v vs H1 H2 H3 H4 H5 IH]; [lia|].
  apply word_at_some in H1. lia.
Qed.

Lemma ptrs_ok_len rec s pos n vs : ptrs_ok rec s pos n vs -> blen vs = Z.of_nat n.
Proof. intros H. unfold blen. induction H; cbn [length]; lia. Qed.

Lemma ptrs_ok_mod rec s pos n vs :
  ptrs_ok rec s pos n vs -> blen (contents (vcs_of vs)) mod 8 = 0.
Proof.
  intros H. induction H; [reflexivity|]. rewrite blen_contents_cons. lia.
Qed.

Lemma ptrs_loop_ok rec s pos n vs :
  ptrs_ok rec s pos n vs -> forall dst dp,
  0 <= dp -> dp mod 8 = 0 -> dp + 8 * Z.of_nat n <= blen dst -> blen dst mod 8 = 0 ->
  blen dst + blen (contents (vcs_of vs)) <= 2 ^ 32 ->
  (forall i, nth_error vs i = Some VNull -> sub dst (dp + 8 * Z.of_nat i) 8 = zeros 8) ->
  copy_ptrs_loop rec n s pos dst dp =
  Ok (upd dst dp (ptr_words (vcs_of vs) ((blen dst - dp - 8) / 8)) ++ contents (vcs_of vs)).
Proof.
  intros H. induction H as [pos H|pos n p v vs Hw H0 Hr Hc Hp IH];
    intros dst dp Hdp Hdp8 Hb Hd8 Hl Hz; cbn [copy_ptrs_loop].
  - cbn [vcs_of map ptr_words contents snd concat].
    rewrite upd_nil, app_nil_r by lia. reflexivity.
  - apply word_at_some in Hw. destruct Hw as (Hp0 & Hp1 & Hpd).
    rewrite read_primitive_in by (cbn [fsize]; lia). cbn [fsize bind].
    rewrite <- Hpd. rewrite blen_contents_cons in Hl. nonneg.
    cbn [vcs_of map ptr_words]. fold (vcs_of vs). rewrite contents_cons.
    destruct (p =? 0) eqn:Ep; cbn [bind].
    + assert (v = VNull) by (apply H0; lia). subst v. clear H0.
      assert (E0 : sub dst dp 8 = zeros 8).
      { specialize (Hz 0%nat eq_refl). rewrite <- Hz. f_equal. lia. }
      change (blen (content VNull)) with 0 in *.
      rewrite IH; try lia.
      * f_equal. cbn [ptr_word content app]. f_equal.
        change (le_enc 8 0) with (zeros 8).
        rewrite <- (upd_join dst dp (zeros 8)).
        -- rewrite <- E0, upd_self by lia.
           f_equal; [rewrite blen_sub; lia|]. f_equal. lia.
        -- lia.
        -- rewrite blen_ptr_words, blen_vcs_of, blen_zeros by lia.
           apply ptrs_ok_len in Hp. lia.
      * intros i Hi. specialize (Hz (S i) Hi). rewrite <- Hz. f_equal. lia.
    + rewrite Hr by lia. clear Hr. cbn [bind].
      set (w := le_enc 8 (ptr_word v ((blen dst - dp - 8) / 8))).
      assert (Hw8 : blen w = 8) by (unfold w; apply blen_le_enc).
      assert (Hu : blen (upd dst dp w) = blen dst) by (apply blen_upd; lia).
      rewrite IH; rewrite ?blen_app, ?Hu; try lia.
      * pose proof (ptrs_ok_len _ _ _ _ _ Hp) as Hlen.
        set (off' := (blen dst + blen (content v) - (dp + 8) - 8) / 8).
        assert (Hpw : blen (ptr_words (vcs_of vs) off') = 8 * Z.of_nat n)
          by (rewrite blen_ptr_words, blen_vcs_of; lia).
        rewrite upd_app1 by (rewrite ?Hpw, ?Hu; lia).
        rewrite <- app_assoc. do 2 f_equal.
        replace (dp + 8) with (dp + blen w) by lia.
        rewrite upd_join by (rewrite ?Hpw; lia).
        do 2 f_equal. unfold off'. f_equal. lia.
      * intros i Hi.
        assert (Hlt : (i < length vs)%nat) by (apply nth_error_Some; congruence).
        apply ptrs_ok_len in Hp. unfold blen in Hp.
        rewrite sub_app1 by (rewrite ?Hu; lia).
        rewrite sub_upd_other by lia.
        specialize (Hz (S i) Hi). rewrite <- Hz. f_equal. lia.
Qed.

Lemma many_ptrs_ok rec s pos n vs dst dp :
  ptrs_ok rec s pos (Z.to_nat n) vs -> 0 <= n ->
  0 <= dp -> dp mod 8 = 0 -> dp + 8 * n <= blen dst -> blen dst mod 8 = 0 ->
  blen dst + blen (contents (vcs_of vs)) <= 2 ^ 32 ->
  (forall i, nth_error vs i = Some VNull -> sub dst (dp + 8 * Z.of_nat i) 8 = zeros 8) ->
  copy_many_ptrs rec n s pos dst dp =
  Ok (upd dst dp (ptr_words (vcs_of vs) ((blen dst - dp - 8) / 8)) ++ contents (vcs_of vs)).
Proof.
  intros H Hn. intros. unfold copy_many_ptrs.
  rewrite check_bounds_in by (apply ptrs_ok_bounds in H; lia). cbn [bind].
  apply ptrs_loop_ok; auto. lia.
Qed.

(** [n] consecutive struct bodies, all pointers fine for [rec] *)
Inductive items_ok rec s : Z -> Z -> Z -> nat -> list (bytes * list value) -> Prop :=
| io_nil : forall pos ds ps, items_ok rec s pos ds ps 0 []
| io_cons : forall pos ds ps n data vs items,
    bytes_at s pos (8 * ds) = Some data ->
    ptrs_ok rec s (pos + 8 * ds) (Z.to_nat ps) vs ->
    (forall i, nth_error vs i = Some VNull ->
       sub (sbuf s) (pos + 8 * ds + 8 * Z.of_nat i) 8 = zeros 8) ->
    items_ok rec s (pos + 8 * (ds + ps)) ds ps n items ->
    items_ok rec s pos ds ps (S n) ((data, vs) :: items).

Lemma items_ok_len rec s pos ds ps n items : items_ok rec s pos ds ps n items -> blen items = Z.of_nat n.
Proof. intros H. unfold blen. induction H; cbn [length]; lia. Qed.

Lemma items_ok_mod rec s pos ds ps n items :
  items_ok rec s pos ds ps n items -> blen (icontents (ics_of items)) mod 8 = 0.
Proof.
  intros H. induction H; [reflexivity|].
  cbn [ics_of map fst snd]. rewrite icontents_cons, blen_app.
  match goal with H : ptrs_ok _ _ _ _ _ |- _ => apply ptrs_ok_mod in H end.
  fold (ics_of items). lia.
Qed.

Lemma items_ok_sizes rec s pos ds ps n items :
  0 <= ps -> items_ok rec s pos ds ps n items ->
  Forall (fun it => blen (fst it) = 8 * ds /\ blen (snd it) = ps) items.
Proof.
  intros Hps H. induction H as [|pos ds ps n data vs items H1 H2 H3 H4 IH]; constructor; auto.
  cbn [fst snd]. apply bytes_at_some in H1. apply ptrs_ok_len in H2. lia.
Qed.

Lemma items_loop_ok rec s pos ds ps n items :
  items_ok rec s pos ds ps n items -> forall dst dp,
  0 <= ds -> 0 <= ps ->
  0 <= dp -> dp mod 8 = 0 -> dp + 8 * ((ds + ps) * Z.of_nat n) <= blen dst -> blen dst mod 8 = 0 ->
  0 <= pos -> pos + 8 * ((ds + ps) * Z.of_nat n) <= slen s ->
  blen dst + blen (icontents (ics_of items)) <= 2 ^ 32 ->
  sub dst dp (8 * ((ds + ps) * Z.of_nat n)) = sub (sbuf s) pos (8 * ((ds + ps) * Z.of_nat n)) ->
  copy_items_loop rec n ((ds + ps) * 8) ps s (pos + 8 * ds) dst (dp + 8 * ds) =
  Ok (upd dst dp (item_words ds ps (ics_of items) ((blen dst - dp) / 8)) ++ icontents (ics_of items)).
Proof.
  intros H. induction H as [pos ds ps|pos ds ps n data vs items Hd Hv Hz Hi IH];
    intros dst dp Hds Hps Hdp Hdp8 Hb Hd8 Hpos Hsb Hl Heq; cbn [copy_items_loop].
  - cbn [ics_of map item_words icontents concat].
    rewrite upd_nil, app_nil_r by lia. reflexivity.
  - pose proof (ptrs_ok_mod _ _ _ _ _ Hv) as Hcm.
    pose proof (ptrs_ok_len _ _ _ _ _ Hv) as Hvl.
    pose proof (items_ok_len _ _ _ _ _ _ _ Hi) as Hil.
    pose proof (items_ok_sizes _ _ _ _ _ _ _ Hps Hi) as His.
    apply bytes_at_some in Hd. destruct Hd as (_ & _ & Hd1 & Hd2 & Hd3).
    cbn [ics_of map fst snd] in *. fold (ics_of items) in *.
    rewrite icontents_cons in *. rewrite blen_app in Hl. cbn [item_words].
    set (T := 8 * ((ds + ps) * Z.of_nat (S n))) in *.
    set (T' := 8 * ((ds + ps) * Z.of_nat n)) in *.
    assert (HT : T = 8 * ds + (8 * ps + T')) by (unfold T, T'; lia).
    assert (HT0 : 0 <= T') by (unfold T'; lia).
    nonneg.
    assert (Hsub : forall a m, 0 <= a -> 0 <= m -> a + m <= T ->
              sub dst (dp + a) m = sub (sbuf s) (pos + a) m).
    { intros a m Ha Hm Ham. unfold slen in *.
      rewrite <- (sub_sub dst dp T a m) by lia.
      rewrite <- (sub_sub (sbuf s) pos T a m) by lia.
      rewrite Heq. reflexivity. }
    rewrite (many_ptrs_ok rec s _ ps vs); try assumption; try lia.
    2:{ intros i Hni.
        assert (Hlt : (i < length vs)%nat) by (apply nth_error_Some; congruence).
        unfold blen in Hvl.
        rewrite <- (Hz i Hni).
        replace (dp + 8 * ds + 8 * Z.of_nat i) with (dp + (8 * ds + 8 * Z.of_nat i)) by lia.
        replace (pos + 8 * ds + 8 * Z.of_nat i) with (pos + (8 * ds + 8 * Z.of_nat i)) by lia.
        apply Hsub; lia. }
    cbn [bind].
    set (pw := ptr_words (vcs_of vs) ((blen dst - (dp + 8 * ds) - 8) / 8)).
    assert (Hpw : blen pw = 8 * ps) by (unfold pw; rewrite blen_ptr_words, blen_vcs_of; lia).
    assert (Hu : blen (upd dst (dp + 8 * ds) pw) = blen dst) by (apply blen_upd; lia).
    replace (pos + 8 * ds + (ds + ps) * 8) with (pos + 8 * (ds + ps) + 8 * ds) by lia.
    replace (dp + 8 * ds + (ds + ps) * 8) with (dp + 8 * (ds + ps) + 8 * ds) by lia.
    unfold slen in *.
    rewrite IH; rewrite ?blen_app, ?Hu; try lia.
    2:{ fold T'. rewrite sub_app1 by (rewrite ?Hu; lia).
        rewrite sub_upd_other by lia. apply Hsub; lia. }
    set (iw := item_words ds ps (ics_of items) _).
    assert (Hiw : blen iw = T').
    { unfold iw. rewrite blen_item_words by (apply ics_of_sizes; exact His).
      rewrite blen_ics_of. unfold T'. lia. }
    rewrite upd_app1 by (rewrite ?Hu, ?Hiw; lia).
    rewrite <- app_assoc. do 2 f_equal.
    replace (dp + 8 * (ds + ps)) with (dp + 8 * ds + blen pw) by lia.
    rewrite upd_join by lia.
    assert (Hdd : sub dst dp (8 * ds) = data).
    { rewrite Hd2. replace dp with (dp + 0) by lia. replace pos with (pos + 0) by lia.
      apply Hsub; lia. }
    rewrite <- (upd_self dst dp (8 * ds)) at 1 by lia. rewrite Hdd.
    rewrite <- Hd3. rewrite upd_join by (rewrite ?blen_app; lia).
    f_equal. f_equal. f_equal.
    + unfold pw. f_equal. lia.
    + unfold iw. f_equal. lia.
Qed.

(** ** the whole copy *)

Lemma fuel_S (n fuel : nat) : (1 <= n)%nat -> (n <= fuel)%nat -> exists f, fuel = S f.
Proof. destruct fuel; [lia|]. eauto. Qed.

Lemma list_max_cons a l : list_max (a :: l) = Nat.max a (list_max l).
Proof. reflexivity. Qed.

Lemma copy_all s :
  (forall p pos v, den s p pos v ->
     p <> 0 -> (p_kind p = 2 -> word_at s pos = Some p) -> limv v ->
     forall fuel, (2 * vdepth v <= fuel + (if (p_kind p =? 2)%Z then 0 else 1))%nat ->
     rec_ok (copy_pointer fuel) s p pos v) /\
  (forall pos n vs, den_ptrs s pos n vs -> Forall limv vs ->
     forall fuel, (2 * list_max (map vdepth vs) <= fuel)%nat ->
     ptrs_ok (copy_pointer fuel) s pos n vs) /\
  (forall pos ds ps n items, den_items s pos ds ps n items ->
     Forall (fun it => Forall limv (snd it)) items ->
     forall fuel, (2 * list_max (map (fun it => list_max (map vdepth (snd it))) items) <= fuel)%nat ->
     items_ok (copy_pointer fuel) s pos ds ps n items).
Proof.
  apply den_all_ind; unfold limv.
  - (* null *) intros. congruence.
  - (* struct *)
    intros p pos data vs Hp Hk Hb Hd IH _ _ Hlim fuel Hf.
    apply (proj1 (vall_struct _ _ _)) in Hlim. destruct Hlim as [Hl1 Hl2].
    unfold lim1 in Hl1. rewrite Hk in Hf. cbn [Z.eqb Pos.eqb vdepth] in Hf.
    destruct fuel as [|fuel]; [lia|].
    specialize (IH Hl2 fuel ltac:(lia)).
    pose proof (ptrs_ok_len _ _ _ _ _ IH) as Hvl.
    pose proof (ptrs_ok_bounds _ _ _ _ _ IH) as Hpb.
    pose proof (p_dsize_range p) as Hds. pose proof (p_psize_range p) as Hps.
    apply bytes_at_some in Hb. destruct Hb as (Hb1 & _ & Hb2 & Hb3 & Hb4).
    intros dst dp Hdp Hdp8 Hdb Hd8 Hlen.
    cbn [copy_pointer]. rewrite kind_spec, Hk. cbn [Z.eqb STRUCT].
    unfold copy_struct. rewrite deref_spec, data_size_spec, ptrs_size_spec.
    rewrite content_struct in *. rewrite !blen_app, blen_ptr_words, blen_vcs_of in Hlen.
    nonneg. cbn [ptr_word].
    destruct (p_dsize p + p_psize p =? 0) eqn:E0.
    + assert (Hdn : data = []) by (apply blen_0_nil; lia).
      assert (Hvn : vs = []) by (apply blen_0_nil; lia).
      subst data vs. rewrite Hdn. cbn [vcs_of map ptr_words contents concat app].
      replace (new_struct (-1) 0 0) with (w_struct (-1) 0 0) by reflexivity.
      rewrite write_int64_in; [|cbn; lia|lia|lia].
      change (blen (@nil byte) + blen (@nil value) =? 0) with true.
      rewrite app_nil_r. reflexivity.
    + destruct (blen data + blen vs =? 0) eqn:E1; [lia|].
      rewrite alloc_struct_in by lia. cbn [bind].
      rewrite check_bounds_in by lia. cbn [bind].
      set (w := le_enc 8 (w_struct ((blen dst - dp - 8) / 8) (p_dsize p) (p_psize p))).
      assert (Hw8 : blen w = 8) by (unfold w; apply blen_le_enc).
      assert (Hu : blen (upd dst dp w) = blen dst) by (apply blen_upd; lia).
      unfold slen in *.
      rewrite write_slice_in by (lens; rewrite ?Hu; lia).
      rewrite (Z.mul_comm (p_dsize p) 8). rewrite <- Hb3.
      rewrite upd_app2 by (lens; rewrite ?Hu; lia).
      rewrite Hu. replace (blen dst - blen dst) with 0 by lia.
      replace (8 * (p_dsize p + p_psize p)) with (8 * p_dsize p + 8 * p_psize p) by lia.
      rewrite zeros_add by lia.
      assert (Ez : upd (zeros (8 * p_dsize p) ++ zeros (8 * p_psize p)) 0 data =
                   data ++ zeros (8 * p_psize p)).
      { pose proof (upd_exact [] (zeros (8 * p_dsize p)) data (zeros (8 * p_psize p))) as HX.
        cbn [app] in HX. apply HX. rewrite blen_zeros; lia. }
      rewrite Ez.
      rewrite (many_ptrs_ok (copy_pointer fuel) s _ (p_psize p) vs); try lia;
        try exact IH; lens; rewrite ?Hu; try lia.
      2:{ intros i Hi.
          assert (Hlt : (i < length vs)%nat) by (apply nth_error_Some; congruence).
          unfold blen in Hvl.
          rewrite sub_app2 by (lens; rewrite ?Hu; lia). rewrite Hu.
          rewrite sub_app2 by (lens; lia).
          apply sub_zeros; lia. }
      f_equal.
      set (off := (blen dst + (blen data + 8 * p_psize p) - (blen dst + 8 * p_dsize p) - 8) / 8).
      assert (Hpw : blen (ptr_words (vcs_of vs) off) = 8 * p_psize p)
        by (rewrite blen_ptr_words, blen_vcs_of; lia).
      assert (Eu : upd (upd dst dp w ++ data ++ zeros (8 * p_psize p))
                       (blen dst + 8 * p_dsize p) (ptr_words (vcs_of vs) off)
                   = upd dst dp w ++ data ++ ptr_words (vcs_of vs) off).
      { pose proof (upd_exact (upd dst dp w ++ data) (zeros (8 * p_psize p))
                      (ptr_words (vcs_of vs) off) []) as HX.
        rewrite !app_nil_r, <- !app_assoc in HX. rewrite blen_app, Hu in HX.
        replace (blen dst + 8 * p_dsize p) with (blen dst + blen data) by lia.
        apply HX. rewrite blen_zeros by lia. lia. }
      rewrite Eu. rewrite <- !app_assoc. f_equal.
      * unfold w. do 2 f_equal. f_equal; lia.
      * do 2 f_equal. f_equal. unfold off. lia.
  - (* primitive list *)
    intros p pos body Hk Ht Hb _ _ Hlim fuel Hf.
    apply (proj1 (vall_vlist _ _ _ _)) in Hlim. unfold lim1 in Hlim.
    rewrite Hk in Hf. cbn [Z.eqb Pos.eqb vdepth] in Hf.
    destruct fuel as [|fuel]; [lia|].
    pose proof (p_ltag_range p) as Htr. pose proof (p_lcount_range p) as Hcr.
    apply bytes_at_some in Hb. destruct Hb as (Hb1 & Hb0 & Hb2 & Hb3 & Hb4).
    intros dst dp Hdp Hdp8 Hdb Hd8 Hlen. nonneg.
    cbn [copy_pointer]. rewrite kind_spec, Hk. cbn [Z.eqb Pos.eqb STRUCT LIST].
    rewrite size_tag_spec.
    change LIST_SIZE_COMPOSITE with 7. change LIST_SIZE_PTR with 6.
    destruct (p_ltag p =? 7) eqn:?; [lia|]. destruct (p_ltag p =? 6) eqn:?; [lia|].
    unfold copy_list_primitive. rewrite deref_spec, item_count_spec, size_tag_spec.
    assert (Ebl : (if p_ltag p =? LIST_SIZE_BIT then (p_lcount p + 8 - 1) / 8
                   else p_lcount p * list_item_length (p_ltag p)) = blen body).
    { rewrite Hb4. unfold list_bytes, LIST_SIZE_BIT.
      assert (Hc : p_ltag p = 0 \/ p_ltag p = 1 \/ p_ltag p = 2 \/ p_ltag p = 3 \/
                   p_ltag p = 4 \/ p_ltag p = 5) by lia.
      assert (L0 : list_item_length 0 = 0) by reflexivity.
      assert (L2 : list_item_length 2 = 1) by reflexivity.
      assert (L3 : list_item_length 3 = 2) by reflexivity.
      assert (L4 : list_item_length 4 = 4) by reflexivity.
      assert (L5 : list_item_length 5 = 8) by reflexivity.
      destruct Hc as [->|[->|[->|[->|[->| ->]]]]]; cbn [Z.eqb Pos.eqb];
        rewrite ?L0, ?L2, ?L3, ?L4, ?L5; lia. }
    pose proof (blen_nonneg body). rewrite Ebl. rewrite alloc_list_in by lia. cbn [bind].
    unfold slen in *.
    rewrite check_bounds_in by (unfold slen; lia). cbn [bind].
    set (w := le_enc 8 (w_list ((blen dst - dp - 8) / 8) (p_ltag p) (p_lcount p))).
    assert (Hw8 : blen w = 8) by (unfold w; apply blen_le_enc).
    assert (Hu : blen (upd dst dp w) = blen dst) by (apply blen_upd; lia).
    rewrite write_slice_in by (lens; rewrite ?Hu; lia).
    cbn [ptr_word content]. fold w. f_equal.
    rewrite Hb4, <- Hb3.
    rewrite upd_app2 by (lens; rewrite ?Hu; lia). f_equal.
    rewrite Hu. replace (blen dst - blen dst) with 0 by lia. unfold pad8.
    rewrite <- Hb4.
    replace (8 * ((blen body + 7) / 8)) with (blen body + (- blen body) mod 8) by lia.
    rewrite zeros_add by lia.
    pose proof (upd_exact [] (zeros (blen body)) body (zeros (- blen body mod 8))) as HX.
    cbn [app] in HX. apply HX. rewrite blen_zeros; lia.
  - (* list of pointers *)
    intros p pos vs Hk Ht Hb1 Hb2 Hd IH _ _ Hlim fuel Hf.
    apply (proj1 (vall_ptrs _ _)) in Hlim. destruct Hlim as [Hl1 Hl2].
    unfold lim1 in Hl1. rewrite Hk in Hf. cbn [Z.eqb Pos.eqb vdepth] in Hf.
    destruct fuel as [|fuel]; [lia|].
    specialize (IH Hl2 fuel ltac:(lia)).
    pose proof (ptrs_ok_len _ _ _ _ _ IH) as Hvl.
    pose proof (p_lcount_range p) as Hcr.
    intros dst dp Hdp Hdp8 Hdb Hd8 Hlen.
    cbn [copy_pointer]. rewrite kind_spec, Hk. cbn [Z.eqb Pos.eqb STRUCT LIST].
    rewrite size_tag_spec.
    change LIST_SIZE_COMPOSITE with 7. change LIST_SIZE_PTR with 6.
    rewrite Ht. cbn [Z.eqb Pos.eqb].
    unfold copy_list_ptr. rewrite deref_spec, item_count_spec.
    change LIST_SIZE_PTR with 6.
    rewrite content_ptrs in *. rewrite !blen_app, blen_ptr_words, blen_vcs_of in Hlen.
    nonneg. cbn [ptr_word].
    rewrite alloc_list_in by lia. cbn [bind].
    rewrite check_bounds_in by lia. cbn [bind].
    replace (8 * ((p_lcount p * 8 + 7) / 8)) with (8 * p_lcount p) by lia.
    replace (blen vs) with (p_lcount p) by lia.
    set (w := le_enc 8 (w_list ((blen dst - dp - 8) / 8) 6 (p_lcount p))).
    assert (Hw8 : blen w = 8) by (unfold w; apply blen_le_enc).
    assert (Hu : blen (upd dst dp w) = blen dst) by (apply blen_upd; lia).
    rewrite (many_ptrs_ok (copy_pointer fuel) s _ (p_lcount p) vs); try lia;
      try exact IH; lens; rewrite ?Hu; try lia.
    2:{ intros i Hi.
        assert (Hlt : (i < length vs)%nat) by (apply nth_error_Some; congruence).
        unfold blen in Hvl.
        rewrite sub_app2 by (lens; rewrite ?Hu; lia). rewrite Hu.
        apply sub_zeros; lia. }
    f_equal.
    set (off := (blen dst + 8 * p_lcount p - blen dst - 8) / 8).
    assert (Hpw : blen (ptr_words (vcs_of vs) off) = 8 * p_lcount p)
      by (rewrite blen_ptr_words, blen_vcs_of; lia).
    rewrite upd_app2 by (rewrite ?Hu, ?Hpw, ?blen_zeros; lia).
    rewrite Hu. replace (blen dst - blen dst) with 0 by lia.
    pose proof (upd_exact [] (zeros (8 * p_lcount p)) (ptr_words (vcs_of vs) off) []) as HX.
    cbn [app] in HX. rewrite !app_nil_r in HX. change (blen (@nil byte)) with 0 in HX.
    rewrite HX by (rewrite blen_zeros; lia).
    rewrite <- app_assoc. f_equal. f_equal. f_equal. unfold off. lia.
  - (* composite list *)
    intros p pos tag items slack Hk Ht Hw Htk Hto Hd IH Hb _ _ Hlim fuel Hf.
    apply (proj1 (vall_comp _ _ _ _ _)) in Hlim. destruct Hlim as [Hl1 Hl2].
    unfold lim1 in Hl1. rewrite Hk in Hf. cbn [Z.eqb Pos.eqb vdepth] in Hf.
    destruct fuel as [|fuel]; [lia|].
    specialize (IH Hl2 fuel ltac:(lia)).
    pose proof (p_dsize_range tag) as Hds. pose proof (p_psize_range tag) as Hps.
    pose proof (p_lcount_range p) as Hcr.
    assert (Hps0 : 0 <= p_psize tag) by lia.
    pose proof (items_ok_len _ _ _ _ _ _ _ IH) as Hil.
    pose proof (items_ok_sizes _ _ _ _ _ _ _ Hps0 IH) as His.
    apply bytes_at_some in Hb. destruct Hb as (Hb1 & Hb0 & Hb2 & Hb3 & Hb4).
    apply word_at_some in Hw. destruct Hw as (Hw1 & Hw2 & Hw3).
    intros dst dp Hdp Hdp8 Hdb Hd8 Hlen.
    cbn [copy_pointer]. rewrite kind_spec, Hk. cbn [Z.eqb Pos.eqb STRUCT LIST].
    rewrite size_tag_spec.
    change LIST_SIZE_COMPOSITE with 7. rewrite Ht. cbn [Z.eqb Pos.eqb].
    unfold copy_list_composite. rewrite deref_spec, item_count_spec.
    change LIST_SIZE_COMPOSITE with 7.
    rewrite content_comp in *.
    rewrite !blen_app, blen_le_enc in Hlen.
    rewrite blen_item_words in Hlen by (apply ics_of_sizes; exact His).
    rewrite blen_ics_of in Hlen. cbn [ptr_word].
    nonneg.
    assert (Hbi : blen items = p_off tag) by lia. rewrite Hbi in *.
    set (IS := (p_dsize tag + p_psize tag) * p_off tag) in *.
    assert (HIS : 0 <= IS) by (unfold IS; lia).
    unfold slen in *.
    rewrite check_bounds_in by (unfold slen; lia). cbn [bind].
    rewrite read_primitive_in by (unfold slen; cbn [fsize]; lia). cbn [fsize bind].
    rewrite <- Hw3. rewrite offset_spec, data_size_spec, ptrs_size_spec.
    rewrite alloc_list_in by lia. cbn [bind].
    assert (Etot : IS + blen slack / 8 = p_lcount p) by lia.
    rewrite Etot.
    replace (8 * (((p_lcount p + 1) * 8 + 7) / 8)) with (8 + 8 * p_lcount p) by lia.
    set (w := le_enc 8 (w_list ((blen dst - dp - 8) / 8) 7 (p_lcount p))).
    assert (Hw8 : blen w = 8) by (unfold w; apply blen_le_enc).
    assert (Hu : blen (upd dst dp w) = blen dst) by (apply blen_upd; lia).
    rewrite write_slice_in by (lens; rewrite ?Hu; lia).
    set (T := p_target p pos) in *.
    set (raw := sub (sbuf s) T ((p_lcount p + 1) * 8)).
    assert (Hraw : blen raw = 8 + 8 * p_lcount p) by (unfold raw; rewrite blen_sub; lia).
    rewrite upd_app2 by (lens; rewrite ?Hu; lia).
    rewrite Hu. replace (blen dst - blen dst) with 0 by lia.
    pose proof (upd_exact [] (zeros (8 + 8 * p_lcount p)) raw []) as HX.
    cbn [app] in HX. rewrite !app_nil_r in HX. change (blen (@nil byte)) with 0 in HX.
    rewrite HX by (rewrite blen_zeros; lia). clear HX.
    replace (T + (8 + p_dsize tag * 8)) with (T + 8 + 8 * p_dsize tag) by lia.
    replace (blen dst + (8 + p_dsize tag * 8)) with (blen dst + 8 + 8 * p_dsize tag) by lia.
    (* the raw bytes are tag, items, slack *)
    assert (Eraw : raw = le_enc 8 (w_struct (p_off tag) (p_dsize tag) (p_psize tag)) ++
                         sub (sbuf s) (T + 8) (8 * IS) ++ slack).
    { unfold raw. replace ((p_lcount p + 1) * 8) with (8 + (8 * IS + 8 * (p_lcount p - IS))) by lia.
      rewrite sub_split by lia. f_equal.
      - rewrite w_struct_of_fields by exact Htk. rewrite Hw3.
        unfold fdec. cbn [fsigned fsize]. change (8 * 8) with 64.
        rewrite to_signed_mod_eq by lia.
        change (2 ^ 64) with (256 ^ Z.of_nat 8).
        rewrite le_enc_mod.
        assert (El : length (sub (sbuf s) T 8) = 8%nat).
        { assert (blen (sub (sbuf s) T 8) = 8) by (apply blen_sub; lia). unfold blen in *; lia. }
        set (x := sub (sbuf s) T 8) in *. rewrite <- (le_enc_dec x) at 1. rewrite El. reflexivity.
      - rewrite sub_split by lia. f_equal. rewrite Hb3. f_equal; lia. }
    assert (Hitl : Z.of_nat (Z.to_nat (p_off tag)) = p_off tag) by lia.
    rewrite (items_loop_ok _ _ _ _ _ _ _ IH); rewrite ?Hitl; fold IS;
      unfold slen; lens; rewrite ?Hu; try lia.
    2:{ rewrite sub_app2 by (rewrite ?Hu; lia). rewrite Hu.
        replace (blen dst + 8 - blen dst) with 8 by lia.
        rewrite Eraw. set (it := sub (sbuf s) (T + 8) (8 * IS)).
        assert (Hit : blen it = 8 * IS) by (unfold it; apply blen_sub; lia).
        rewrite <- Hit. apply sub_app_exact. rewrite blen_le_enc. lia. }
    f_equal.
    set (iw := item_words _ _ _ ((blen dst + blen raw - (blen dst + 8)) / 8)).
    assert (Hiw : blen iw = 8 * IS).
    { unfold iw. rewrite blen_item_words by (apply ics_of_sizes; exact His).
      rewrite blen_ics_of, Hbi. reflexivity. }
    rewrite upd_app2 by (rewrite ?Hu, ?Hiw; lia).
    rewrite Hu. replace (blen dst + 8 - blen dst) with 8 by lia.
    rewrite Eraw.
    set (tw := le_enc 8 (w_struct (p_off tag) (p_dsize tag) (p_psize tag))).
    assert (Htw : blen tw = 8) by (unfold tw; apply blen_le_enc).
    set (it := sub (sbuf s) (T + 8) (8 * IS)).
    assert (Hit : blen it = 8 * IS) by (unfold it; apply blen_sub; lia).
    pose proof (upd_exact tw it iw slack ltac:(lia)) as HX. rewrite Htw in HX.
    rewrite HX. clear HX.
    rewrite <- !app_assoc. do 3 f_equal.
    unfold iw. f_equal. lia.
  - (* far *)
    intros p pos pos' p' v Hk Hf Hk' Hp' Hd IH Hp Hw Hlim fuel Hfu.
    rewrite Hk in Hfu. cbn [Z.eqb Pos.eqb] in Hfu.
    pose proof (vdepth_pos v) as Hv.
    destruct fuel as [|fuel]; [lia|].
    assert (Hnf : (p_kind p' =? 2) = false) by lia.
    rewrite Hnf in IH.
    specialize (IH Hp' ltac:(intros; contradiction) Hlim fuel ltac:(lia)).
    intros dst dp Hdp Hdp8 Hdb Hd8 Hlen.
    cbn [copy_pointer]. rewrite kind_spec, Hk. cbn [Z.eqb Pos.eqb STRUCT LIST FAR].
    specialize (Hw Hk).
    apply (read_far_ptr_spec _ _ _ _ _ Hw) in Hf. rewrite Hf. cbn [bind].
    apply IH; assumption.
  - (* no pointers *)
    intros. constructor. assumption.
  - (* pointers *)
    intros pos n p v vs Hw Hd IH Hds IHs Hlim fuel Hf.
    inversion Hlim as [|? ? Hl1 Hl2]; subst.
    assert (Hf1 : (2 * vdepth v <= fuel)%nat).
    { pose proof (list_max_in (vdepth v) (map vdepth (v :: vs)) (or_introl eq_refl)). lia. }
    assert (Hf2 : (2 * list_max (map vdepth vs) <= fuel)%nat).
    { cbn [map list_max fold_right] in Hf. unfold list_max in *. lia. }
    apply po_cons with (p := p); auto.
    + intros ->. apply den_zero in Hd. exact Hd.
    + intros Hp. apply IH; auto. destruct (p_kind p =? 2); lia.
    + apply content_mod. eapply den_wf; eauto.
  - (* no items *)
    intros. constructor.
  - (* items *)
    intros pos ds ps n data vs items Hb Hd IH Hds IHs Hlim fuel Hf.
    inversion Hlim as [|? ? Hl1 Hl2]; subst. cbn [snd] in Hl1.
    cbn [map snd] in Hf. rewrite list_max_cons in Hf.
    apply io_cons; auto.
    + apply IH; auto. lia.
    + intros i Hi. eapply den_ptrs_null; eauto.
    + apply IHs; auto. lia.
Qed.
