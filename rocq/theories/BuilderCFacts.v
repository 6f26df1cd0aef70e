(** The compiled builder does what the Python builder does. *)
From Verif Require Import Base BaseFacts Spec Ptr PtrFacts PtrFinal Segment SegmentFacts Builder Copy Enc EncFacts
  BuilderC BuilderSim.
From Verif Require CopyFacts CopyStrict ObjFacts CRead CReadFacts.
Import CopyStrict.
From Coq Require Import ZifyBool ZifyNat.
Ltac Zify.zify_post_hook ::= Z.div_mod_to_equations.

(** The state of the compiled builder [st] represents the bytes [buf]. *)
Definition Rc (buf : bytes) (st : cb) : Prop :=
  cb_end st = blen buf /\ exists k, 0 <= k /\ cb_mem st = buf ++ zeros k.

Lemma Rc_string buf st : Rc buf st -> c_as_string st = buf.
Proof.
  intros [E (k & K & M)]. unfold c_as_string. rewrite E, M. rewrite sub_app1 by (pose proof (blen_nonneg buf); lia).
  unfold sub. cbn [Z.to_nat skipn]. unfold blen. rewrite Nat2Z.id. apply firstn_all.
Qed.

Lemma Rc_init cap : 0 <= cap -> Rc [] (c_init cap).
Proof. intros H. split; [reflexivity|]. exists cap. split; [exact H|reflexivity]. Qed.

Lemma Rc_store buf st i b : Rc buf st -> 0 <= i -> i + blen b <= blen buf ->
  exists st', c_store st i b = Ok st' /\ Rc (upd buf i b) st'.
Proof.
  intros [E (k & K & M)] Hi Hb. unfold c_store. rewrite M, blen_app, blen_zeros by lia.
  replace (_ && _) with true by (symmetry; lia). eexists. split; [reflexivity|].
  split; cbn [cb_end cb_mem].
  - rewrite blen_upd by lia. exact E.
  - exists k. split; [exact K|]. apply upd_app1; lia.
Qed.

Lemma land8 x : Z.land x (-8) = 8 * (x / 8).
Proof.
  change (-8) with (Z.lnot (Z.ones 3)). rewrite <- Z.ldiff_land, Z.ldiff_ones_r by lia.
  rewrite Z.shiftl_mul_pow2, Z.shiftr_div_pow2 by lia. change (2 ^ 3) with 8. lia.
Qed.

Lemma lor_bound n a b : 0 <= n -> 0 <= a < 2 ^ n -> 0 <= b < 2 ^ n -> 0 <= Z.lor a b < 2 ^ n.
Proof.
  intros Hn Ha Hb. split; [apply Z.lor_nonneg; lia|].
  assert (E : Z.land (Z.lor a b) (Z.ones n) = Z.lor a b).
  { rewrite Z.land_lor_distr_l, !Z.land_ones by lia. rewrite !Z.mod_small by lia. reflexivity. }
  rewrite <- E, Z.land_ones by lia. apply Z.mod_pos_bound. apply Z.pow_pos_nonneg; lia.
Qed.

Section junk.
  Variable junk : nat -> byte.

  Lemma Rc_resize mem e n : 0 <= e -> blen mem < n ->
    exists k, 0 <= k /\ cb_mem (c_resize junk {| cb_mem := mem; cb_end := e |} n) = mem ++ zeros k /\
      n <= blen mem + k /\ cb_end (c_resize junk {| cb_mem := mem; cb_end := e |} n) = e.
  Proof.
    intros He Hn. unfold c_resize. cbn [cb_mem cb_end]. pose proof (blen_nonneg mem) as N0.
    rewrite Z.shiftr_div_pow2 by lia. rewrite land8. change (2 ^ 1) with 2.
    set (L := 8 * ((Z.max n (blen mem + blen mem / 2 + 512) + (8 - 1)) / 8)).
    assert (HL : n <= L /\ blen mem <= L) by (unfold L; lia).
    exists (L - blen mem). split; [lia|]. split; [|split; [lia|reflexivity]].
    unfold c_realloc. set (j := map junk _).
    assert (Bj : blen j = L - blen mem).
    { unfold j, blen. rewrite map_length, seq_length. unfold blen in HL. lia. }
    pose proof (upd_exact mem j (zeros (L - blen mem)) []) as X.
    rewrite !app_nil_r in X. apply X. rewrite blen_zeros; lia.
  Qed.

  Lemma Rc_allocate buf st n : Rc buf st -> 0 <= n ->
    snd (c_allocate junk st n) = blen buf /\ Rc (buf ++ zeros n) (fst (c_allocate junk st n)).
  Proof.
    intros [E (k & K & M)] Hn. unfold c_allocate. cbn [cb_mem cb_end].
    destruct st as [mem e]. cbn [cb_mem cb_end] in *. subst e. subst mem.
    rewrite blen_app, blen_zeros by lia.
    destruct (Z.ltb_spec (blen buf + k) (blen buf + n)) as [L|L]; cbn [fst snd]; (split; [reflexivity|]).
    - destruct (Rc_resize (buf ++ zeros k) (blen buf + n) (blen buf + n)) as (k' & K' & M' & L' & E').
      { pose proof (blen_nonneg buf). lia. } { rewrite blen_app, blen_zeros; lia. }
      rewrite blen_app, blen_zeros in L' by lia.
      split; [rewrite E', blen_app, blen_zeros by lia; reflexivity|].
      exists (k + k' - n). split; [lia|]. rewrite M'. rewrite <- !app_assoc, <- !zeros_add by lia. do 2 f_equal. lia.
    - split; cbn [cb_mem cb_end]; [rewrite blen_app, blen_zeros by lia; reflexivity|].
      exists (k - n). split; [lia|]. rewrite <- app_assoc, <- zeros_add by lia. do 2 f_equal. lia.
  Qed.

  (** writing a pointer word: the C constructor and the Python one *)
  Lemma wrap64_mod x : wrap64 x mod 2 ^ 64 = x mod 2 ^ 64.
  Proof. unfold wrap64. rewrite to_signed_mod_eq by lia. rewrite Z.mod_mod by lia. reflexivity. Qed.
  Lemma fenc_wrap x : fenc Fq (wrap64 x) = fenc Fq x.
  Proof.
    rewrite !CopyFacts.fenc_q. rewrite <- (le_enc_mod 8 (wrap64 x)), <- (le_enc_mod 8 x).
    change (256 ^ Z.of_nat 8) with (2 ^ 64). rewrite wrap64_mod. reflexivity.
  Qed.

  Definition okR {A} (R : A -> cb -> Prop) := sim1 R.

  Lemma sim_w64 buf st i v : Rc buf st -> sim1 Rc (s_w64 buf i v) (c_write_long st i v).
  Proof.
    intros H a E. unfold s_w64 in E. destruct (in_fmtb Fq v); [|discriminate].
    unfold s_store in E. destruct ((0 <=? i) && (i + blen (fenc Fq v) <=? blen buf)) eqn:C; [|discriminate].
    apply ok_inj in E. subst a. unfold c_write_long. apply Rc_store; [exact H| |]; lia.
  Qed.
  Lemma sim_wrap buf st i v : Rc buf st -> sim1 Rc (s_w64 buf i v) (c_write_long st i (wrap64 v)).
  Proof. intros H. unfold c_write_long. rewrite fenc_wrap. apply (sim_w64 buf st i v H). Qed.
  Lemma sim_ws buf st i src s n : Rc buf st -> sim1 Rc (s_ws buf i src s n) (c_write_slice st i src s n).
  Proof.
    intros H a E. unfold s_ws in E. unfold c_write_slice. destruct (_ && _ && _); [|discriminate].
    unfold s_store in E. destruct ((0 <=? i) && (i + _ <=? blen buf)) eqn:C; [|discriminate].
    apply ok_inj in E. subst a. apply Rc_store; [exact H| |]; lia.
  Qed.
  Lemma sim_astruct buf st p d q : Rc buf st -> sim2 Rc (s_astruct buf p d q) (c_alloc_struct junk st p d q).
  Proof.
    intros H a r E. unfold s_astruct in E. destruct ((0 <=? d) && (0 <=? q)) eqn:C; [|discriminate].
    apply bind_ok in E as (b & E1 & E2). apply ok_inj in E2. assert (b = a) by congruence. assert (r = blen buf) by congruence. subst b r.
    unfold c_alloc_struct. destruct (Rc_allocate buf st ((d + q) * 8) H ltac:(lia)) as [S F].
    destruct (c_allocate junk st ((d + q) * 8)) as [st1 r1]. cbn [fst snd] in S, F. subst r1.
    destruct (f_c_builders ((blen buf - (p + 8)) / 8) d q 0 ltac:(lia)) as (-> & _).
    destruct (sim_wrap _ _ p _ F _ E1) as (st2 & W & R2). rewrite W. cbn [bind]. eauto.
  Qed.
  Lemma sim_alist buf st p t c l : Rc buf st -> sim2 Rc (s_alist buf p t c l) (c_alloc_list junk st p t c l).
  Proof.
    intros H a r E. unfold s_alist in E. destruct (Z.leb_spec 0 l) as [L|L]; [|discriminate].
    apply bind_ok in E as (b & E1 & E2). apply ok_inj in E2. assert (b = a) by congruence. assert (r = blen buf) by congruence. subst b r.
    unfold c_alloc_list. replace (Z.land (l + (8 - 1)) (-8)) with (round_up_to_word l) by (rewrite land8, round_up_spec; reflexivity).
    destruct (Rc_allocate buf st (round_up_to_word l) H) as [S F]. { rewrite round_up_spec. lia. }
    destruct (c_allocate junk st (round_up_to_word l)) as [st1 r1]. cbn [fst snd] in S, F. subst r1.
    destruct (f_c_builders ((blen buf - (p + 8)) / 8) t c 0 ltac:(lia)) as (_ & -> & _).
    destruct (sim_wrap _ _ p _ F _ E1) as (st2 & W & R2). rewrite W. cbn [bind]. eauto.
  Qed.

  Lemma sim_far s i r : s_far s i = Ok r -> CRead.c_read_far_ptr s i = Ok r.
  Proof.
    unfold s_far. intros E. apply bind_ok in E as (r' & E & C). destruct (_ && _ && _) eqn:B in C; [|discriminate].
    apply ok_inj in C. subst r'. apply andb_true_iff in B as (B & B3). apply andb_true_iff in B as (B1 & B2).
    apply Z.ltb_lt in B1. apply Z.leb_le in B2, B3.
    assert (RP : forall j p, read_ptr s j = Ok p -> CRead.c_read_ptr s j = Ok p /\ 0 <= j < 2 ^ 60).
    { intros j p P. assert (J : 0 <= j /\ j + 8 <= blen (sbuf s)).
      { unfold read_ptr, read_primitive in P. destruct (_ || _) eqn:C in P; [discriminate|]. cbn [fsize] in C. lia. }
      destruct (CReadFacts.c_read_ptr_eq s j ltac:(lia) ltac:(lia)) as [(q & Q1 & Q2 & _)|(Q1 & _)]; [|congruence].
      rewrite Q1 in P. split; [congruence|lia]. }
    unfold read_far_ptr in E. unfold CRead.c_read_far_ptr. destruct (soffs s) as [t|]; [|discriminate].
    apply bind_ok in E as (p & E1 & E). rewrite (proj1 (RP _ _ E1)). cbn [bind]. CReadFacts.macros p.
    pose proof (p_faroff_range p) as FR. rewrite <- far_offset_spec in FR.
    apply bind_ok in E as (x & E2 & E). rewrite E2. cbn [bind] in *. cbn zeta in E. rewrite CReadFacts.c_mul_small by lia.
    destruct (far_landing_pad p =? 0).
    - apply bind_ok in E as (q & E3 & E). destruct (RP _ _ E3) as (C3 & J3).
      rewrite CReadFacts.to_long_ok by lia. cbn [bind]. rewrite C3. cbn [bind]. exact E.
    - apply bind_ok in E as (q & E3 & E). destruct (RP _ _ E3) as (C3 & J3).
      rewrite CReadFacts.to_long_ok by lia. cbn [bind]. rewrite C3. cbn [bind].
      apply bind_ok in E as (g & E4 & E). rewrite CReadFacts.c_add_small by lia. rewrite (proj1 (RP _ _ E4)). cbn [bind].
      CReadFacts.macros q. CReadFacts.macros g.
      pose proof (p_faroff_range q) as FQ. rewrite <- far_offset_spec in FQ.
      do 3 (apply bind_ok in E as (? & E' & E); rewrite E'; cbn [bind]; clear E').
      apply bind_ok in E as (y & E5 & E). rewrite E5. cbn [bind]. apply ok_inj in E. subst r. cbn [fst] in *.
      rewrite CReadFacts.c_mul_small, CReadFacts.to_long_ok by lia. cbn [bind].
      rewrite CReadFacts.c_add_small by lia. reflexivity.
  Qed.
  Lemma c_copy_strict fuel s p pos buf st dp : Rc buf st ->
    sim1 Rc (s_copy fuel s p pos buf dp) (c_copy_pointer junk fuel s p pos st dp).
  Proof.
    apply copy_sim; intros; [apply sim_w64|apply sim_ws|apply sim_astruct|apply sim_alist| |apply sim_far]; assumption.
  Qed.
End junk.
From Verif Require Import BuilderOps.

Section ops.
  Variable fuel : nat.
  Variable junk : nat -> byte.

  Lemma step_agree len o len' buf st : fits fuel len o len' -> blen buf = len -> Rc buf st ->
    exists buf' x st', py_step fuel o buf = Ok (buf', x) /\ c_step fuel junk o st = Ok (st', x) /\
                       Rc buf' st' /\ blen buf' = len'.
  Proof.
    intros F. destruct F; intros L R; cbn [py_step c_step].
    - (* write *) pose proof (blen_fenc f v) as BF.
      destruct (Rc_store buf st i (fenc f v) R) as (st' & C & R'); [lia|lia|].
      exists (upd buf i (fenc f v)), 0, st'. unfold b_write. rewrite pack_into_in by (try assumption; lia).
      unfold c_write. replace (in_fmtb f v) with true by (symmetry; now apply in_fmtb_iff).
      rewrite C. unfold no_result; cbn [bind]. split; [reflexivity|]. split; [reflexivity|]. split; [exact R'|]. rewrite blen_upd; lia.
    - (* bool *)
      assert (FR : in_fmt FB (fdec FB (sub buf i 1))) by (apply fdec_range; rewrite blen_sub by lia; reflexivity).
      unfold in_fmt, fmin, fmax in FR. cbn [fsigned fsize] in FR. change (2 ^ (8 * 1)) with 256 in FR.
      set (c := fdec FB (sub buf i 1)) in *.
      set (x := Z.shiftl (Z.b2z b) k).
      assert (X : 0 <= x < 256).
      { unfold x. rewrite Z.shiftl_mul_pow2 by lia. pose proof (Z.pow_le_mono_r 2 k 7 ltac:(lia) ltac:(lia)).
        pose proof (Z.pow_pos_nonneg 2 k ltac:(lia) ltac:(lia)). change (2 ^ 7) with 128 in *. destruct b; cbn [Z.b2z]; lia. }
      assert (X2 : 0 <= Z.lor c x < 2 ^ 8) by (apply lor_bound; lia).
      pose proof (blen_fenc FB (Z.lor c x)) as BF. cbn [fsize] in BF.
      destruct (Rc_store buf st i (fenc FB (Z.lor c x)) R) as (st' & C & R'); [lia|lia|].
      exists (upd buf i (fenc FB (Z.lor c x))), 0, st'. unfold write_bool.
      rewrite unpack_from_in by (cbn [fsize]; lia). cbn [bind fsize]. fold c. fold x.
      rewrite pack_into_in; [|unfold in_fmt, fmin, fmax; cbn [fsigned fsize]; change (2 ^ (8 * 1)) with 256; lia|lia|cbn [fsize]; lia].
      unfold c_write_bool. destruct R as [E (q & Q & M)]. rewrite M, blen_app, blen_zeros by lia.
      replace (_ && _) with true by (symmetry; lia). rewrite sub_app1 by lia. fold c. fold x.
      rewrite Z.mod_small by lia. rewrite C. unfold no_result; cbn [bind].
      split; [reflexivity|]. split; [reflexivity|]. split; [exact R'|]. rewrite blen_upd; lia.
    - (* slice *)
      assert (BS : blen (sub src start n) = n) by (rewrite blen_sub; lia).
      destruct (Rc_store buf st i (sub src start n) R) as (st' & C & R'); [lia|lia|].
      exists (upd buf i (sub src start n)), 0, st'. rewrite CopyFacts.write_slice_in by lia.
      unfold c_write_slice. replace (_ && _ && _) with true by (symmetry; lia). rewrite C. unfold no_result; cbn [bind].
      split; [reflexivity|]. split; [reflexivity|]. split; [exact R'|]. rewrite blen_upd; lia.
    - (* allocate *)
      destruct (Rc_allocate junk buf st n R ltac:(assumption)) as [S F].
      destruct (c_allocate junk st n) as [st' r]. cbn [fst snd] in *. subst r.
      exists (buf ++ zeros n), (blen buf), st'. split; [reflexivity|]. split; [reflexivity|]. split; [exact F|].
      rewrite blen_app, blen_zeros; lia.
    - (* struct *)
      subst len.
      destruct (sim_astruct junk buf st pos ds ps R _ _ (s_astruct_in buf pos ds ps ltac:(lia) ltac:(lia) ltac:(lia) ltac:(lia)))
        as (st' & C & R').
      do 3 eexists. split; [apply CopyFacts.alloc_struct_in; lia|]. split; [exact C|]. split; [exact R'|].
      rewrite blen_app, blen_upd, blen_zeros by (rewrite ?blen_le_enc; lia). lia.
    - (* list *)
      subst len.
      destruct (sim_alist junk buf st pos tag count body R _ _ (s_alist_in buf pos tag count body ltac:(lia) ltac:(lia) ltac:(lia) ltac:(lia) ltac:(lia)))
        as (st' & C & R').
      do 3 eexists. split; [apply CopyFacts.alloc_list_in; lia|]. split; [exact C|]. split; [exact R'|].
      rewrite blen_app, blen_upd, blen_zeros by (rewrite ?blen_le_enc; lia). lia.
    - (* text *)
      subst len. pose proof (blen_nonneg s).
      destruct (sim_alist junk buf st pos 2 (blen s + 1) (blen s + 1) R _ _
        (s_alist_in buf pos 2 (blen s + 1) (blen s + 1) ltac:(lia) ltac:(lia) ltac:(lia) ltac:(lia) ltac:(lia))) as (st' & C & R').
      set (buf1 := upd buf pos _ ++ zeros _) in *.
      assert (BL : blen buf1 = blen buf + 8 * ((blen s + 1 + 7) / 8)).
      { unfold buf1. rewrite blen_app, blen_upd, blen_zeros by (rewrite ?blen_le_enc; lia). lia. }
      pose proof (blen_nonneg buf).
      destruct (Rc_store buf1 st' (blen buf) s R') as (st2 & C2 & R2); [lia|lia|].
      exists (upd buf1 (blen buf) s), (blen buf), st2.
      unfold alloc_text, alloc_text_tz, c_alloc_text_tz. change LIST_SIZE_8 with 2.
      rewrite CopyFacts.alloc_list_in by lia. rewrite C. cbn [bind]. fold buf1. rewrite C2. cbn [bind].
      rewrite py_slice_set_in by lia.
      split; [reflexivity|]. split; [reflexivity|]. split; [exact R2|]. rewrite blen_upd; lia.
    - (* data *)
      subst len. pose proof (blen_nonneg s).
      destruct (sim_alist junk buf st pos 2 (blen s) (blen s) R _ _
        (s_alist_in buf pos 2 (blen s) (blen s) ltac:(lia) ltac:(lia) ltac:(lia) ltac:(lia) ltac:(lia))) as (st' & C & R').
      set (buf1 := upd buf pos _ ++ zeros _) in *.
      assert (BL : blen buf1 = blen buf + 8 * ((blen s + 7) / 8)).
      { unfold buf1. rewrite blen_app, blen_upd, blen_zeros by (rewrite ?blen_le_enc; lia). lia. }
      pose proof (blen_nonneg buf).
      destruct (Rc_store buf1 st' (blen buf) s R') as (st2 & C2 & R2); [lia|lia|].
      exists (upd buf1 (blen buf) s), (blen buf), st2.
      unfold alloc_data, alloc_text_tz, c_alloc_text_tz. change LIST_SIZE_8 with 2. rewrite Z.add_0_r.
      rewrite CopyFacts.alloc_list_in by lia. rewrite C. cbn [bind]. fold buf1. rewrite C2. cbn [bind].
      rewrite py_slice_set_in by lia.
      split; [reflexivity|]. split; [reflexivity|]. split; [exact R2|]. rewrite blen_upd; lia.
    - (* None *)
      subst len.
      destruct (sim_w64 buf st pos 0 R _ (s_w64_in buf pos 0 ltac:(lia) ltac:(lia) ltac:(lia))) as (st' & C & R').
      do 3 eexists. unfold alloc_text, alloc_text_tz, c_alloc_text_tz. rewrite C.
      rewrite CopyFacts.write_int64_in by lia. unfold no_result; cbn [bind]. split; [reflexivity|]. split; [reflexivity|]. split; [exact R'|].
      rewrite blen_upd; rewrite ?blen_le_enc; lia.
    - subst len.
      destruct (sim_w64 buf st pos 0 R _ (s_w64_in buf pos 0 ltac:(lia) ltac:(lia) ltac:(lia))) as (st' & C & R').
      do 3 eexists. unfold alloc_data, alloc_text_tz, c_alloc_text_tz. rewrite C.
      rewrite CopyFacts.write_int64_in by lia. unfold no_result; cbn [bind]. split; [reflexivity|]. split; [reflexivity|]. split; [exact R'|].
      rewrite blen_upd; rewrite ?blen_le_enc; lia.
    - (* copy *)
      subst len. rename H into D, H0 into N, H1 into W, H2 into LV, H3 into FU, H4 into P0, H5 into P8, H6 into PB, H7 into B8, H8 into BM, H9 into LS.
      assert (FU' : (2 * vdepth v <= fuel + (if (p_kind p =? 2)%Z then 0 else 1))%nat) by (destruct (p_kind p =? 2); lia).
      pose proof (proj1 (CopyStrict.copy_all src LS) p src_pos v D N W LV fuel FU' buf dst_pos P0 P8 PB B8 BM) as E.
      pose proof (proj1 (CopyFacts.copy_all src) p src_pos v D N W LV fuel FU' buf dst_pos P0 P8 PB B8 BM) as E'.
      destruct (c_copy_strict junk _ _ _ _ _ _ _ R _ E) as (st' & C & R').
      do 3 eexists. rewrite E', C. unfold no_result; cbn [bind]. split; [reflexivity|]. split; [reflexivity|]. split; [exact R'|].
      rewrite blen_app, blen_upd by (rewrite ?blen_le_enc; lia). reflexivity.
  Qed.

  Lemma run_agree ops : forall len buf st, all_fit fuel len ops -> blen buf = len -> Rc buf st ->
    exists buf' xs st', run (py_step fuel) ops buf = Ok (buf', xs) /\ run (c_step fuel junk) ops st = Ok (st', xs) /\ Rc buf' st'.
  Proof.
    induction ops as [|o ops IH]; intros len buf st F L R.
    - exists buf, [], st. auto.
    - inversion F as [|? ? len' ? F1 F2]; subst.
      destruct (step_agree _ _ _ _ _ F1 eq_refl R) as (buf1 & x & st1 & P & C & R1 & L1).
      destruct (IH _ _ _ F2 L1 R1) as (buf2 & xs & st2 & P2 & C2 & R2).
      exists buf2, (x :: xs), st2. cbn [run]. rewrite P, C. cbn [bind]. rewrite P2, C2. auto.
  Qed.

  Lemma builders_agree ops cap : all_fit fuel 0 ops -> 0 <= cap ->
    exists buf xs st, run (py_step fuel) ops [] = Ok (buf, xs) /\
      run (c_step fuel junk) ops (c_init cap) = Ok (st, xs) /\ c_as_string st = buf.
  Proof.
    intros F C. destruct (run_agree ops 0 [] (c_init cap) F eq_refl (Rc_init cap C)) as (b & xs & st & P & Q & R).
    exists b, xs, st. split; [exact P|]. split; [exact Q|]. apply Rc_string, R.
  Qed.
End ops.
