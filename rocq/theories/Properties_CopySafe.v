(** Property theorems C46, continued: hostile sources and the compiled
    builder. The two shapes of Properties_Build.v ([C46_heap_overflow_refuted],
    [C46_negative_offset_refuted]) are the only ones which make a copy, or
    dumps(), touch memory outside of the buffers. *)
From Verif Require Import Base BaseFacts Spec Ptr PtrFacts Segment SegmentFacts Builder Copy Endof Struct List
  CRead CReadSpec CReadFacts BuilderC CLoad CEndofFacts CopySafe Samples.
From Verif Require Properties_Compiled Properties_Build.
From Coq Require Import ZifyBool ZifyNat.
Ltac Zify.zify_post_hook ::= Z.div_mod_to_equations.

(** Any source at all whose structs and lists are not before the beginning of
    the buffer, and whose struct lists have room for their items ([tame],
    CopySafe.v): pointers to after the end, truncated objects, cycles, wrong
    far pointers. The copy does not touch memory outside of the source and of
    the builder; when it ends it has changed nothing of what was allocated
    before, except the destination pointer, and the memory not yet allocated
    is still zero. *)
Theorem C46_compiled_tame : forall junk fuel s p pos st dp,
  tame s p pos -> long_seg s -> - 2 ^ 61 <= pos <= 2 ^ 61 ->
  cb_good st -> 0 <= dp -> dp + 8 <= cb_end st ->
  match c_copy_pointer junk fuel s p pos st dp with
  | Ok st' =>
      cb_good st' /\ cb_end st <= cb_end st' /\
      forall i, 0 <= i < cb_end st -> i < dp \/ dp + 8 <= i -> getb (cb_mem st') i = getb (cb_mem st) i
  | Err e => e <> MemFault
  end.
Proof.
  intros junk fuel s p pos st dp T LS P0 G D E.
  exact (copy_post junk s p pos T LS P0 fuel p pos st dp (cb_end st) (v_here s p pos) G D E ltac:(lia)).
Qed.
Print Assumptions C46_compiled_tame.

(** ** dumps() *)
Lemma nf_swallow r : nf r -> nf (swallow r).
Proof. unfold nf, swallow. intros H. destruct r as [|[]]; congruence. Qed.
Lemma nf_except v r : nf r -> nf (except_ v r).
Proof. unfold nf, except_. intros H. destruct r as [z|e]; [destruct (z =? v); discriminate|congruence]. Qed.

Section step.
  Variable crec : seg -> Z -> Z -> res Z.
  Variable s : seg.
  Hypothesis L : blen (sbuf s) < 2 ^ 60.
  Hypothesis Hrec : forall p i, 0 <= i -> i + 8 <= blen (sbuf s) -> nf (crec s p i).

  Lemma ptrs_nf n : forall po ce, - 2 ^ 61 <= po -> po + 8 * Z.of_nat n <= 2 ^ 61 -> nf (c_endof_ptrs crec n s po ce).
  Proof.
    intros po ce A B. unfold c_endof_ptrs. apply nf_swallow. revert po ce A B.
    induction n as [|n IH]; intros po ce A B; cbn [c_endof_ptrs_]; [apply nf_ok|].
    destruct (c_read_ptr_eq s po ltac:(lia) ltac:(lia)) as [(p & _ & -> & C)|(_ & ->)]; cbn [bind].
    - rewrite c_add_small by lia. destruct (p =? 0); [apply IH; lia|]. destruct (negb _); [apply nf_ok|].
      apply nf_bind; [apply Hrec; lia|]. intros. apply IH; lia.
    - change (0 =? 0) with true. cbv iota. rewrite c_add_small by lia. apply IH; lia.
  Qed.
  Lemma items_nf n is ps : 0 <= ps -> 0 <= is -> 8 * ps <= 2 ^ 19 -> forall io ce, - 2 ^ 61 <= io -> io + Z.of_nat n * is <= 2 ^ 60 + 2 ^ 58 ->
    nf (c_endof_items crec n s io is ps ce).
  Proof.
    intros Hp Hi H8. induction n as [|n IH]; intros io ce A B; cbn [c_endof_items]; [apply nf_ok|].
    apply nf_bind; [apply ptrs_nf; lia|]. intros e. destruct (e =? -1); [apply nf_ok|]. rewrite c_add_small by nia. apply IH; nia.
  Qed.
End step.

Lemma endof_nf s : blen (sbuf s) < 2 ^ 60 -> forall fuel p ofs, - 2 ^ 42 <= ofs <= 2 ^ 60 -> nf (c_endof fuel s p ofs).
Proof.
  intros L. induction fuel as [|fuel IH]; intros p ofs Ho; [discriminate|].
  assert (HR : forall p i, 0 <= i -> i + 8 <= blen (sbuf s) -> nf (c_endof fuel s p i)) by (intros; apply IH; lia).
  cbn [c_endof]. macros p. rewrite C_deref_eq by lia. pose proof (off_r p) as OR.
  assert (DR : - 2 ^ 43 <= deref p ofs <= 2 ^ 60 + 2 ^ 33) by (unfold deref; lia).
  set (i := deref p ofs) in *. clearbody i.
  apply nf_except.
  pose proof (dsize_r p) as Rd. pose proof (psize_r p) as Rp. pose proof (count_r p) as Rc.
  destruct (kind p =? STRUCT).
  - unfold c_endof_struct. apply nf_swallow. rewrite !c_mul_small by lia. rewrite (c_add_small i) by lia.
    apply ptrs_nf; [exact L|exact HR|lia|lia].
  - destruct (kind p =? LIST); [|destruct (kind p =? FAR); discriminate].
    destruct (_ =? _); [|destruct (_ =? _); [|destruct (_ =? _); apply nf_ok]].
    + destruct (c_read_ptr_eq s i ltac:(lia) ltac:(lia)) as [(t & _ & -> & B)|(_ & ->)]; cbn [bind].
      * macros t. pose proof (dsize_r t) as Td. pose proof (psize_r t) as Tp. pose proof (off_r t) as To.
        unfold c_endof_list_composite. apply nf_swallow. destruct (_ =? 0); [apply nf_ok|].
        rewrite (c_add_small (struct_data_size t)) by lia.
        rewrite (c_mul_small (struct_data_size t + _)) by lia. rewrite (c_add_small i) by lia.
        rewrite (c_mul_small (struct_data_size t)) by lia. rewrite c_add_small by lia.
        apply items_nf; [exact L|exact HR|lia|lia|lia|lia|].
        assert (Z.of_nat (Z.to_nat (offset t)) * ((struct_data_size t + struct_ptrs_size t) * 8) <= 2 ^ 30 * 2 ^ 20) by (apply Z.mul_le_mono_nonneg; lia). lia.
      * unfold c_endof_list_composite. change (C_STRUCT_PTRS_SIZE 0 =? 0) with true. cbv iota. apply nf_swallow, nf_ok.
    + unfold c_endof_list_ptr. apply nf_swallow. apply ptrs_nf; [exact L|exact HR|lia|lia].
Qed.

(** An object: its own place and what is found from its pointers. *)
Definition tame_obj (s : seg) (off ds ps : Z) : Prop :=
  (0 < ds + ps -> 0 <= off) /\
  forall i q, 0 <= i < ps -> word_at s (off + 8 * (ds + i)) = Some q -> tame s q (off + 8 * (ds + i)).

Lemma visits_struct s off ds ps p0 pos0 : p_kind p0 = 0 -> p_target p0 pos0 = off -> p_dsize p0 = ds -> p_psize p0 = ps ->
  forall p pos, visits s p0 pos0 p pos ->
  (p = p0 /\ pos = pos0) \/
  exists i q, 0 <= i < ps /\ word_at s (off + 8 * (ds + i)) = Some q /\ visits s q (off + 8 * (ds + i)) p pos.
Proof.
  intros K T D P p pos V. induction V as [|p pos i q V IH Kp I W|p pos i q V IH Kp Tp I W|p pos t i j q V IH Kp Tp Wt I J W|p pos q pos' V IH Kp F].
  - auto.
  - destruct IH as [(-> & ->)|(i0 & q0 & I0 & W0 & V0)].
    + right. rewrite T, D in *. rewrite P in I. exists i, q. split; [exact I|]. split; [exact W|]. apply v_here.
    + right. exists i0, q0. split; [exact I0|]. split; [exact W0|]. apply v_struct; assumption.
  - destruct IH as [(-> & ->)|(i0 & q0 & I0 & W0 & V0)]; [lia|].
    right. exists i0, q0. split; [exact I0|]. split; [exact W0|]. apply v_list; assumption.
  - destruct IH as [(-> & ->)|(i0 & q0 & I0 & W0 & V0)]; [lia|].
    right. exists i0, q0. split; [exact I0|]. split; [exact W0|]. eapply v_item; eassumption.
  - destruct IH as [(-> & ->)|(i0 & q0 & I0 & W0 & V0)]; [lia|].
    right. exists i0, q0. split; [exact I0|]. split; [exact W0|]. eapply v_far; eassumption.
Qed.

Lemma new_fields off ds ps : 0 <= ds < 2 ^ 16 -> 0 <= ps < 2 ^ 16 ->
  p_kind (C_NEW_STRUCT off ds ps) = 0 /\ (- 2 ^ 29 <= off < 2 ^ 29 -> p_off (C_NEW_STRUCT off ds ps) = off) /\
  p_dsize (C_NEW_STRUCT off ds ps) = ds /\ p_psize (C_NEW_STRUCT off ds ps) = ps.
Proof.
  intros B C. rewrite C_new_struct_signed.
  destruct (fields_wrap (new_struct off ds ps)) as (F1 & F2 & F3 & F4 & _).
  rewrite !kind_spec in F1. rewrite !offset_spec in F2. rewrite !data_size_spec in F3. rewrite !ptrs_size_spec in F4.
  rewrite F1, F2, F3, F4. rewrite new_struct_spec by lia. unfold w_struct, p_kind, p_off, p_dsize, p_psize, to_signed.
  clear F1 F2 F3 F4. split; [lia|]. split; [|split; lia]. intros A.
  replace ((4 * (off mod 2 ^ 30) + 2 ^ 32 * ds + 2 ^ 48 * ps) / 4) with (off mod 2 ^ 30 + (ds + 2 ^ 16 * ps) * 2 ^ 30) by lia.
  rewrite Z.mod_add by lia. rewrite Zmod_mod. destruct (_ <? _) eqn:X; lia.
Qed.

Lemma pointer_tame o : long_obj o -> blen (sbuf (o_seg o)) <= 2 ^ 32 -> o_off o mod 8 = 0 ->
  tame_obj (o_seg o) (o_off o) (o_ds o) (o_ps o) -> tame (o_seg o) (c_as_pointer o 0) 0.
Proof.
  intros (L & OR & PO & DR & PR) B A (T0 & T1). unfold c_as_pointer. rewrite (c_add_small (o_off o)) by lia. rewrite c_add_small by lia.
  set (k := (o_off o + - 0 + -8) / 8).
  destruct (new_fields k (o_ds o) (o_ps o) DR PR) as (F1 & F2 & F3 & F4).
  set (p := C_NEW_STRUCT k (o_ds o) (o_ps o)) in *. clearbody p.
  assert (X : 0 < o_ds o + o_ps o -> p_target p 0 = o_off o).
  { intros H. specialize (T0 H). unfold p_target. rewrite F2 by (unfold k; lia). unfold k. lia. }
  intros q pos V. destruct (visits_struct (o_seg o) (p_target p 0) (o_ds o) (o_ps o) p 0 F1 eq_refl F3 F4 q pos V) as [(-> & ->)|(i & q0 & I & W & V0)].
  - split.
    + unfold not_before. rewrite F1, F3, F4. intros [(_ & H)|H]; [rewrite X by exact H; apply T0; exact H|discriminate].
    + unfold items_fit. rewrite F1. discriminate.
  - rewrite X in * by lia. exact (T1 i q0 I W q pos V0).
Qed.

(** dumps(): for any object of a message of at most 4 GB. (A struct list read
    from a list of smaller items can give objects which are not at a whole
    word: these are excluded.) *)
Theorem C46_compiled_dumps : forall junk fuel o fastpath,
  long_obj o -> slen (o_seg o) <= 2 ^ 32 -> o_off o mod 8 = 0 ->
  tame_obj (o_seg o) (o_off o) (o_ds o) (o_ps o) ->
  c_dumps junk fuel o fastpath <> Err MemFault.
Proof.
  intros junk fuel o fastpath L B A T. unfold slen in B. pose proof (pointer_tame o L B A T) as TP.
  destruct L as (LS & OR & PO & DR & PR). pose proof (proj1 LS) as L. unfold c_dumps. apply nf_bind.
  - destruct fastpath; [|apply nf_ok]. unfold c_o_get_end. apply nf_swallow, endof_nf; [lia|]. rewrite c_add_small by lia. lia.
  - intros e. destruct (negb _).
    + cbv zeta. unfold c_dump_message. cbv zeta. destruct (_ || _ || _); discriminate.
    + pose proof (allocate_good junk (c_init 512) 16) as G.
      assert (G0 : cb_good (c_init 512)).
      { split; [vm_compute; split; discriminate|]. intros i I. unfold c_init. cbn [cb_mem]. apply getb_zeros. }
      specialize (G G0 ltac:(lia)). destruct (c_allocate junk (c_init 512) 16) as [st r]. destruct G as (-> & G1 & E1 & _).
      cbn [cb_end c_init] in E1.
      pose proof (C46_compiled_tame junk fuel (o_seg o) (c_as_pointer o 0) 0 st 8 TP LS ltac:(lia) G1 ltac:(lia) ltac:(lia)) as C.
      destruct (c_copy_pointer junk fuel (o_seg o) (c_as_pointer o 0) 0 st 8) as [st1|x]; cbn [bind]; [|congruence].
      destruct C as (G2 & E2 & _). unfold c_write.
      assert (W : forall st i v, cb_good st -> 16 <= cb_end st -> 0 <= i <= 4 ->
        (exists st', c_store st i (fenc FI v) = Ok st' /\ cb_good st' /\ cb_end st' = cb_end st)).
      { intros st' i v G' E' I. assert (BF : blen (fenc FI v) = 4) by apply blen_fenc.
        destruct (store_good st' i (fenc FI v) G') as (st2 & S1 & S2 & S3 & _); [lia|lia|]. eauto. }
      destruct (in_fmtb FI (1 - 1)); [|discriminate]. destruct (W st1 0 (1 - 1) G2 ltac:(lia) ltac:(lia)) as (st2 & -> & G3 & E3). cbn [bind].
      destruct (in_fmtb FI _); [|discriminate].
      destruct (W st2 4 ((cb_end st1 - 8) / 8) G3 ltac:(lia) ltac:(lia)) as (st3 & -> & G4 & E4). discriminate.
Qed.
Print Assumptions C46_compiled_dumps.

(** ** Every well-formed source is tame, and others are *)
From Verif Require StructFacts.
Lemma visits_den s p0 pos0 v0 : den s p0 pos0 v0 -> (p_kind p0 = 2 -> word_at s pos0 = Some p0) ->
  forall p pos, visits s p0 pos0 p pos -> (exists v, den s p pos v) /\ (p_kind p = 2 -> word_at s pos = Some p).
Proof.
  intros D0 F0 p pos V. induction V as [|p pos i q V IH Kp I W|p pos i q V IH Kp Tp I W|p pos t i j q V IH Kp Tp Wt I J W|p pos q pos' V IH Kp F].
  - split; [eauto|exact F0].
  - destruct IH as ((v & D) & _). split; [|intros _; exact W].
    inversion D; subst; try lia; try (unfold p_kind in *; discriminate).
    + exfalso. unfold p_psize in I. change (0 / 2 ^ 48) with 0 in I. cbn in I. lia.
    + destruct (StructFacts.den_ptrs_nth _ _ _ _ (Z.to_nat i) H2) as (p' & W' & V'); [lia|].
      replace (p_target p pos + 8 * p_dsize p + 8 * Z.of_nat (Z.to_nat i)) with (p_target p pos + 8 * (p_dsize p + i)) in * by lia.
      rewrite W in W'. injection W' as <-. eauto.
  - destruct IH as ((v & D) & _). split; [|intros _; exact W].
    inversion D; subst; try lia; try (unfold p_kind in *; discriminate).
    destruct (StructFacts.den_ptrs_nth _ _ _ _ (Z.to_nat i) H3) as (p' & W' & V'); [lia|].
    replace (p_target p pos + 8 * Z.of_nat (Z.to_nat i)) with (p_target p pos + 8 * i) in * by lia.
    rewrite W in W'. injection W' as <-. eauto.
  - destruct IH as ((v & D) & _). split; [|intros _; exact W].
    inversion D; subst; try lia; try (unfold p_kind in *; discriminate).
    rewrite H1 in Wt. injection Wt as <-.
    pose proof (EncFacts.den_items_len _ _ _ _ _ _ H4) as LI.
    destruct (nth_error items (Z.to_nat i)) as [[d vs]|] eqn:NI; [|apply nth_error_None in NI; lia].
    destruct (StructFacts.den_items_nth _ _ _ _ _ _ _ _ _ (proj1 (p_dsize_range tag)) (proj1 (p_psize_range tag)) H4 NI) as (_ & DP).
    destruct (StructFacts.den_ptrs_nth _ _ _ _ (Z.to_nat j) DP) as (p' & W' & V'); [lia|].
    match type of W' with word_at _ ?x = _ => replace x with (p_target p pos + 8 * (1 + i * (p_dsize tag + p_psize tag) + p_dsize tag + j)) in * by (rewrite !Z2Nat.id by lia; lia) end.
    rewrite W in W'. injection W' as <-. eauto.
  - destruct IH as ((v & D) & FW). specialize (FW Kp). unfold word_or_0 in F. rewrite FW in F.
    destruct (StructFacts.den_far_inv _ _ _ _ D Kp) as (pos2 & p2 & F2 & K2 & N2 & D2).
    destruct (far_to_fun _ _ _ _ _ _ F F2) as [-> ->]. split; [eauto|]. intros X. contradiction.
Qed.
Theorem C46_well_formed_tame : forall s p pos v,
  den s p pos v -> (p_kind p = 2 -> word_at s pos = Some p) -> tame s p pos.
Proof.
  intros s p0 pos0 v0 D0 F0 p pos V. destruct (visits_den s p0 pos0 v0 D0 F0 p pos V) as ((v & D) & _). split.
  - unfold not_before. intros H. inversion D; subst.
    + exfalso. destruct H as [(_ & H)|H]; [vm_compute in H|]; discriminate.
    + match goal with B : bytes_at _ _ _ = Some _ |- _ => apply EncFacts.bytes_at_some in B; lia end.
    + match goal with B : bytes_at _ _ _ = Some _ |- _ => apply EncFacts.bytes_at_some in B; lia end.
    + lia.
    + match goal with W : word_at _ _ = Some _ |- _ => unfold word_at in W; destruct (_ && _) eqn:C in W; [lia|discriminate] end.
    + lia.
  - unfold items_fit. intros K T t W. inversion D; subst; try lia; try (unfold p_kind in *; discriminate).
    rewrite H1 in W. injection W as <-. match goal with B : bytes_at _ _ _ = Some _ |- _ => apply EncFacts.bytes_at_some in B; lia end.
Qed.
Print Assumptions C46_well_formed_tame.

(** A source which is tame, and not well-formed: a struct with a number and a
    text said to be of 1000 bytes, of which there are 3. *)
Definition cut_source : seg := {| sbuf := le_enc 8 77 ++ le_enc 8 (w_list 0 2 1000) ++ abc; soffs := None |}.
Lemma visits_leaf s p0 pos0 : p_kind p0 = 1 -> p_ltag p0 < 6 -> forall p pos, visits s p0 pos0 p pos -> p = p0 /\ pos = pos0.
Proof.
  intros K T p pos V. induction V as [|p pos i q V IH Kp I W|p pos i q V IH Kp Tp I W|p pos t i j q V IH Kp Tp Wt I J W|p pos q pos' V IH Kp F];
    [auto|destruct IH; subst; lia|destruct IH; subst; lia|destruct IH; subst; lia|destruct IH; subst; lia].
Qed.
Example C46_cut_ex : tame cut_source (w_struct (-1) 1 1) 0 /\
  forall junk, c_copy_pointer junk 5 cut_source (w_struct (-1) 1 1) 0 (fst (c_allocate junk (c_init 512) 8)) 0 = Err IndexError.
Proof.
  split.
  - assert (E1 : p_kind (w_struct (-1) 1 1) = 0) by (vm_compute; reflexivity).
    assert (E2 : p_target (w_struct (-1) 1 1) 0 = 0) by (vm_compute; reflexivity).
    assert (E3 : p_dsize (w_struct (-1) 1 1) = 1) by (vm_compute; reflexivity).
    assert (E4 : p_psize (w_struct (-1) 1 1) = 1) by (vm_compute; reflexivity).
    intros p pos V0. destruct (visits_struct _ _ _ _ _ _ E1 E2 E3 E4 p pos V0) as [(-> & ->)|(i & q & I & W & V)].
    + split; [intros _; vm_compute; discriminate|]. intros K. vm_compute in K. discriminate K.
    + assert (i = 0) by lia. subst i. vm_compute in W. injection W as <-.
      apply visits_leaf in V; [|vm_compute; reflexivity|vm_compute; reflexivity]. destruct V as [-> ->].
      split; [intros _; vm_compute; discriminate|]. intros _ K. vm_compute in K. discriminate K.
  - intros junk. vm_compute. reflexivity.
Qed.

(** The sources of the counterexamples are not tame. *)
Example C46_not_tame_ex : ~ tame Properties_Build.evil_tag (w_list 0 7 0) 0 /\ ~ tame Properties_Build.evil_offset (w_struct (-10) 0 1) 0.
Proof.
  split; intros T; destruct (T _ _ (v_here _ _ _)) as [N F].
  - unfold items_fit in F. assert (X : p_off (w_struct 100 0 1) * (p_dsize (w_struct 100 0 1) + p_psize (w_struct 100 0 1)) <= p_lcount (w_list 0 7 0)).
    { apply F; vm_compute; reflexivity. }
    vm_compute in X. apply X. reflexivity.
  - unfold not_before in N. assert (0 <= -72); [|lia]. apply N. left. split; vm_compute; reflexivity.
Qed.

(** A difference between the two libraries (found by the model): the compiled
    read_far_ptr takes a landing pad outside of the buffer for a null word, so
    the compiled copy of such a source makes an empty struct where the Python
    one raises IndexError. [lost] is a message of one word: a far pointer to
    the word 100 of its only segment. *)
Definition lost : seg := {| sbuf := le_enc 8 (2 + 8 * 100); soffs := Some [0] |}.
Theorem C46_far_outside_refuted :
  tame lost (2 + 8 * 100) 0 /\ long_seg lost /\
  copy_pointer 5 lost (2 + 8 * 100) 0 (zeros 8) 0 = Err IndexError /\
  forall junk, exists st, c_copy_pointer junk 5 lost (2 + 8 * 100) 0 (fst (c_allocate junk (c_init 512) 8)) 0 = Ok st /\
                          c_as_string st = le_enc 8 (w_struct (-1) 0 0).
Proof.
  split; [|split; [|split]].
  - assert (V : forall p pos, visits lost (2 + 8 * 100) 0 p pos -> p = 2 + 8 * 100 /\ pos = 0).
    { intros p pos V. induction V as [|p pos i q V IH Kp I W|p pos i q V IH Kp Tp I W|p pos t i j q V IH Kp Tp Wt I J W|p pos q pos' V IH Kp F];
        [auto|destruct IH; subst; vm_compute in Kp; discriminate Kp..|].
      destruct IH; subst. destruct F as [st q P1 S W|st q tag st2 P1 S W Wt Kq Pq Ot S2]; vm_compute in S; injection S as <-; vm_compute in W; discriminate W. }
    intros p pos H. apply V in H as (-> & ->). split; [intros [(H & _)|H]; vm_compute in H; discriminate H|intros H; vm_compute in H; discriminate H].
  - split; [vm_compute; reflexivity|]. cbn [lost soffs]. constructor; [|constructor]. vm_compute. split; discriminate.
  - vm_compute. reflexivity.
  - intros junk. eexists. split; vm_compute; reflexivity.
Qed.
Print Assumptions C46_far_outside_refuted.
