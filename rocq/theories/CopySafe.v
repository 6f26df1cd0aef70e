(** When copying into the compiled builder is memory-safe, whatever else is
    in the source. *)
From Verif Require Import Base Spec BaseFacts Ptr PtrFacts Segment SegmentFacts Builder Copy BuilderC CRead CReadSpec CReadFacts.
From Verif Require BuilderCFacts Properties_Hostile.
From Coq Require Import ZifyBool ZifyNat.
Ltac Zify.zify_post_hook ::= Z.div_mod_to_equations.

(** ** Specification *)

(** The pointers found by following the pointer [p0], which is at byte
    [pos0]: [visits s p0 pos0 p pos] for each of them, with its place. Only
    words inside of the buffer are found. A far pointer leads to where the
    word at its place says: this is [p], unless [p] is itself the tag of a
    landing pad; a place outside of the buffer says zero. *)
Definition word_or_0 (s : seg) (pos : Z) : Z := match word_at s pos with Some w => w | None => 0 end.
Inductive visits (s : seg) (p0 pos0 : Z) : Z -> Z -> Prop :=
| v_here : visits s p0 pos0 p0 pos0
| v_struct : forall p pos i q, visits s p0 pos0 p pos -> p_kind p = 0 -> 0 <= i < p_psize p ->
    word_at s (p_target p pos + 8 * (p_dsize p + i)) = Some q ->
    visits s p0 pos0 q (p_target p pos + 8 * (p_dsize p + i))
| v_list : forall p pos i q, visits s p0 pos0 p pos -> p_kind p = 1 -> p_ltag p = 6 -> 0 <= i < p_lcount p ->
    word_at s (p_target p pos + 8 * i) = Some q ->
    visits s p0 pos0 q (p_target p pos + 8 * i)
| v_item : forall p pos t i j q, visits s p0 pos0 p pos -> p_kind p = 1 -> p_ltag p = 7 ->
    word_at s (p_target p pos) = Some t -> 0 <= i < p_off t -> 0 <= j < p_psize t ->
    word_at s (p_target p pos + 8 * (1 + i * (p_dsize t + p_psize t) + p_dsize t + j)) = Some q ->
    visits s p0 pos0 q (p_target p pos + 8 * (1 + i * (p_dsize t + p_psize t) + p_dsize t + j))
| v_far : forall p pos q pos', visits s p0 pos0 p pos -> p_kind p = 2 ->
    far_to s (word_or_0 s pos) pos' q -> visits s p0 pos0 q pos'.

(** The two things a hostile source must not do. *)
(** A struct or a list is not before the beginning of the buffer; *)
Definition not_before (p pos : Z) : Prop :=
  (p_kind p = 0 /\ 0 < p_dsize p + p_psize p) \/ p_kind p = 1 -> 0 <= p_target p pos.
(** the items a struct list says it has fit in the words it says it has. *)
Definition items_fit (s : seg) (p pos : Z) : Prop :=
  p_kind p = 1 -> p_ltag p = 7 -> forall t, word_at s (p_target p pos) = Some t ->
  p_off t * (p_dsize t + p_psize t) <= p_lcount p.
Definition tame (s : seg) (p0 pos0 : Z) : Prop :=
  forall p pos, visits s p0 pos0 p pos -> not_before p pos /\ items_fit s p pos.

(** The compiled builder: what was allocated is inside of its memory, and the
    rest of the memory is zero *)
Definition cb_good (st : cb) : Prop :=
  0 <= cb_end st <= blen (cb_mem st) /\
  forall i, cb_end st <= i < blen (cb_mem st) -> getb (cb_mem st) i = x00.

(** ** Proofs *)
Definition ckeeps (n dp : Z) (a b : cb) : Prop :=
  cb_good b /\ cb_end a <= cb_end b /\
  forall i, 0 <= i < n -> i < dp \/ dp + 8 <= i -> getb (cb_mem b) i = getb (cb_mem a) i.
Definition post (n dp : Z) (a : cb) (r : res cb) : Prop :=
  match r with Ok b => ckeeps n dp a b | Err e => e <> MemFault end.

Lemma ck_refl n dp a : cb_good a -> ckeeps n dp a a.
Proof. intros H. split; [exact H|]. split; [lia|reflexivity]. Qed.
Lemma ck_trans n dp a b c : ckeeps n dp a b -> ckeeps n dp b c -> ckeeps n dp a c.
Proof.
  intros (H1 & H2 & H3) (H4 & H5 & H6). split; [exact H4|]. split; [lia|]. intros i A B. rewrite H6 by assumption. apply H3; assumption.
Qed.
Lemma ck_weaken n dp q a b : ckeeps n q a b -> n <= q -> ckeeps n dp a b.
Proof. intros (H1 & H2 & H3) Q. split; [exact H1|]. split; [exact H2|]. intros i A B. apply H3; lia. Qed.
Lemma post_weaken n dp q a r : post n q a r -> n <= q -> post n dp a r.
Proof. intros H Q. destruct r; [|exact H]. eapply ck_weaken; eassumption. Qed.
Lemma post_bind n dp a r k : post n dp a r -> (forall b, ckeeps n dp a b -> post n dp b (k b)) -> post n dp a (bind r k).
Proof.
  intros H K. destruct r as [b|e]; cbn [bind]; [|exact H]. specialize (K b H). destruct (k b) as [c|e]; [|exact K].
  eapply ck_trans; eassumption.
Qed.

Lemma store_good st i b : cb_good st -> 0 <= i -> i + blen b <= cb_end st ->
  exists st', c_store st i b = Ok st' /\ cb_good st' /\ cb_end st' = cb_end st /\
    forall k, k < i \/ i + blen b <= k -> 0 <= k -> getb (cb_mem st') k = getb (cb_mem st) k.
Proof.
  intros (G1 & G2) I B. pose proof (blen_nonneg b). unfold c_store. replace (_ && _) with true by lia.
  eexists. split; [reflexivity|]. unfold cb_good. cbn [cb_end cb_mem]. rewrite blen_upd by lia.
  assert (X : forall k, k < i \/ i + blen b <= k -> 0 <= k -> getb (upd (cb_mem st) i b) k = getb (cb_mem st) k).
  { intros k K K0. rewrite getb_upd by lia. replace (_ && _) with false by lia. reflexivity. }
  split; [|split; [reflexivity|exact X]]. split; [exact G1|]. intros k K. rewrite X by lia. apply G2. exact K.
Qed.

Lemma slice_post n dp st i src start len : cb_good st -> n <= i -> 0 <= i -> i + len <= cb_end st ->
  0 <= len -> 0 <= start -> start + len <= blen src ->
  exists st', c_write_slice st i src start len = Ok st' /\ cb_end st' = cb_end st /\ ckeeps n dp st st'.
Proof.
  intros G N I E L S B. unfold c_write_slice. replace (_ && _) with true by lia.
  destruct (store_good st i (sub src start len) G I) as (st' & -> & G' & E' & K); [rewrite blen_sub; lia|].
  exists st'. split; [reflexivity|]. split; [exact E'|]. split; [exact G'|]. split; [lia|]. intros k A _. apply K; lia.
Qed.

Section junk.
  Variable junk : nat -> byte.

  Lemma allocate_good st len : cb_good st -> 0 <= len ->
    let (st', r) := c_allocate junk st len in
    r = cb_end st /\ cb_good st' /\ cb_end st' = cb_end st + len /\
    forall k, 0 <= k < cb_end st -> getb (cb_mem st') k = getb (cb_mem st) k.
  Proof.
    intros (G1 & G2) L. unfold c_allocate. cbn [cb_mem cb_end].
    destruct (blen (cb_mem st) <? cb_end st + len) eqn:C.
    - destruct (BuilderCFacts.Rc_resize junk (cb_mem st) (cb_end st + len) (cb_end st + len)) as (k & K0 & M & B & E); [lia|lia|].
      split; [reflexivity|]. unfold cb_good. rewrite E, M, blen_app, blen_zeros by lia.
      split; [split; [lia|]|split; [reflexivity|]].
      + intros i I. destruct (Z.lt_ge_cases i (blen (cb_mem st))).
        * rewrite getb_app1 by lia. apply G2. lia.
        * rewrite getb_app2 by lia. apply getb_zeros.
      + intros i I. apply getb_app1. lia.
    - split; [reflexivity|]. unfold cb_good. cbn [cb_mem cb_end]. split; [split; [lia|]|split; [reflexivity|reflexivity]].
      intros i I. apply G2. lia.
  Qed.

  Lemma write_ptr_post n dp st p : cb_good st -> 0 <= dp -> dp + 8 <= cb_end st ->
    exists st', c_write_long st dp p = Ok st' /\ cb_end st' = cb_end st /\ ckeeps n dp st st'.
  Proof.
    intros G D E. unfold c_write_long. assert (BF : blen (fenc Fq p) = 8) by apply blen_fenc.
    destruct (store_good st dp (fenc Fq p) G D) as (st' & -> & G' & E' & K); [lia|].
    exists st'. split; [reflexivity|]. split; [exact E'|]. split; [exact G'|]. split; [lia|]. intros k A B. apply K; lia.
  Qed.

  Lemma alloc_struct_post n dp st ds ps : cb_good st -> 0 <= dp -> dp + 8 <= cb_end st -> n <= cb_end st -> 0 <= ds -> 0 <= ps ->
    exists st', c_alloc_struct junk st dp ds ps = Ok (st', cb_end st) /\ cb_end st' = cb_end st + (ds + ps) * 8 /\ ckeeps n dp st st'.
  Proof.
    intros G D E N Hd Hp. unfold c_alloc_struct. pose proof (allocate_good st ((ds + ps) * 8) G ltac:(lia)) as A.
    destruct (c_allocate junk st ((ds + ps) * 8)) as [st1 r]. destruct A as (-> & G1 & E1 & K1).
    destruct (write_ptr_post n dp st1 (C_NEW_STRUCT ((cb_end st - (dp + 8)) / 8) ds ps) G1 D ltac:(lia)) as (st2 & -> & E2 & K2).
    cbn [bind]. exists st2. split; [reflexivity|]. split; [lia|]. eapply ck_trans; [|exact K2].
    split; [exact G1|]. split; [lia|]. intros i I _. apply K1. lia.
  Qed.
  Lemma alloc_list_post n dp st tag c body : cb_good st -> 0 <= dp -> dp + 8 <= cb_end st -> n <= cb_end st -> 0 <= body ->
    exists st', c_alloc_list junk st dp tag c body = Ok (st', cb_end st) /\ cb_end st + body <= cb_end st' /\ ckeeps n dp st st'.
  Proof.
    intros G D E N Hb. unfold c_alloc_list. rewrite BuilderCFacts.land8. set (l := 8 * ((body + (8 - 1)) / 8)).
    assert (L : body <= l) by (unfold l; lia).
    pose proof (allocate_good st l G ltac:(lia)) as A.
    destruct (c_allocate junk st l) as [st1 r]. destruct A as (-> & G1 & E1 & K1).
    destruct (write_ptr_post n dp st1 (C_NEW_LIST ((cb_end st - (dp + 8)) / 8) tag c) G1 D ltac:(lia)) as (st2 & -> & E2 & K2).
    cbn [bind]. exists st2. split; [reflexivity|]. split; [lia|]. eapply ck_trans; [|exact K2].
    split; [exact G1|]. split; [lia|]. intros i I _. apply K1. lia.
  Qed.

  Lemma fast_word s i : 0 <= i -> i + 8 <= blen (sbuf s) -> exists p, c_read_int64_fast s i = Ok p /\ word_at s i = Some p.
  Proof.
    intros A B. unfold c_read_int64_fast, word_at, slen. replace (_ && _) with true by lia. eexists. split; reflexivity.
  Qed.

  Section rec.
    Variable rec : seg -> Z -> Z -> cb -> Z -> res cb.
    Variable s : seg.
    Variable V : Z -> Z -> Prop.
    Hypothesis R : forall p pos a dp n, V p pos ->
      cb_good a -> 0 <= dp -> dp + 8 <= cb_end a -> n <= cb_end a -> post n dp a (rec s p pos a dp).

    Lemma loop_post k : forall pos a dp n,
      (forall i q, 0 <= i < Z.of_nat k -> word_at s (pos + 8 * i) = Some q -> V q (pos + 8 * i)) ->
      0 <= pos -> pos + 8 * Z.of_nat k <= blen (sbuf s) ->
      cb_good a -> n <= dp -> 0 <= dp -> dp + 8 * Z.of_nat k <= cb_end a ->
      post n dp a (g_ptrs_loop cb c_read_int64_fast rec k s pos a dp).
    Proof.
      induction k as [|k IH]; intros pos a dp n HV P0 P1 G N D E; cbn [g_ptrs_loop]; [apply ck_refl; exact G|].
      destruct (fast_word s pos P0 ltac:(lia)) as (p & -> & W). cbn [bind].
      apply post_bind.
      - destruct (p =? 0); [apply ck_refl; exact G|]. apply R; try assumption; try lia.
        specialize (HV 0 p ltac:(lia)). replace (pos + 8 * 0) with pos in HV by lia. apply HV. exact W.
      - intros b (G' & E' & _). apply (post_weaken n dp (dp + 8)); [|lia]. apply IH; try assumption; try lia.
        intros i q I Wq. replace (pos + 8 + 8 * i) with (pos + 8 * (i + 1)) in * by lia. apply HV; [lia|exact Wq].
    Qed.

    Lemma many_post k pos a dp n : 0 <= k ->
      (forall i q, 0 <= i < k -> word_at s (pos + 8 * i) = Some q -> V q (pos + 8 * i)) ->
      0 <= pos -> cb_good a -> n <= dp -> 0 <= dp -> dp + 8 * k <= cb_end a ->
      post n dp a (g_many_ptrs cb c_read_int64_fast rec k s pos a dp).
    Proof.
      intros K HV P0 G N D E. unfold g_many_ptrs, check_bounds. destruct (_ <? _) eqn:C; cbn [bind]; [discriminate|].
      apply loop_post; try assumption; try lia. intros i q I. apply HV. lia.
    Qed.

    Lemma items_post k ds ps : 0 <= ds -> 0 <= ps -> forall pos a dp n,
      (forall i j q, 0 <= i < Z.of_nat k -> 0 <= j < ps -> word_at s (pos + 8 * (i * (ds + ps) + j)) = Some q -> V q (pos + 8 * (i * (ds + ps) + j))) ->
      0 <= pos -> cb_good a -> n <= dp -> 0 <= dp -> dp + 8 * (Z.of_nat k * (ds + ps)) - 8 * ds <= cb_end a ->
      post n dp a (g_items_loop cb c_read_int64_fast rec k ((ds + ps) * 8) ps s pos a dp).
    Proof.
      intros Hd Hp. induction k as [|k IH]; intros pos a dp n HV P0 G N D E; cbn [g_items_loop]; [apply ck_refl; exact G|].
      apply post_bind.
      - apply many_post; try assumption; try lia. intros i q I Wq. specialize (HV 0 i q ltac:(lia) I).
        replace (pos + 8 * (0 * (ds + ps) + i)) with (pos + 8 * i) in HV by lia. apply HV. exact Wq.
      - intros b (G' & E' & _). apply (post_weaken n dp (dp + (ds + ps) * 8)); [|lia]. apply IH; try assumption; try lia.
        intros i j q I J Wq. replace (pos + (ds + ps) * 8 + 8 * (i * (ds + ps) + j)) with (pos + 8 * ((i + 1) * (ds + ps) + j)) in * by lia.
        apply HV; [lia|exact J|exact Wq].
    Qed.
  End rec.

  Lemma null_post fuel s pos n dp a : cb_good a -> 0 <= dp -> dp + 8 <= cb_end a ->
    post n dp a (c_copy_pointer junk fuel s 0 pos a dp).
  Proof.
    intros G D E. destruct fuel as [|fuel]; [discriminate|]. unfold c_copy_pointer. cbn [g_copy].
    change (kind 0 =? STRUCT) with true. cbv iota. unfold g_struct.
    change (struct_data_size 0 + struct_ptrs_size 0 =? 0) with true. cbv iota.
    destruct (write_ptr_post n dp a (new_struct (-1) 0 0) G D E) as (st & -> & _ & K). exact K.
  Qed.
  Lemma word_pos s pos q : word_at s pos = Some q -> 0 <= pos /\ pos + 8 <= blen (sbuf s).
  Proof. intros W. apply EncFacts.word_at_some in W. unfold slen in W. lia. Qed.
  Lemma far_cases s pos : long_seg s -> - 2 ^ 62 <= pos <= 2 ^ 62 ->
    match c_read_far_ptr s pos with
    | Ok (pos', q) => q = 0 \/ far_to s (word_or_0 s pos) pos' q
    | Err e => e <> MemFault
    end.
  Proof.
    intros L P. unfold word_or_0. destruct (word_at s pos) as [w|] eqn:W.
    - pose proof (proj2 (read_ptr_word s pos w) W) as RP.
      destruct (c_read_far_ptr_eq s pos L P (ex_intro _ w RP)) as ([->|(_ & [->|(k & ->)])] & _); [|discriminate|left; reflexivity].
      pose proof (Properties_Hostile.read_far_only s pos) as O.
      destruct (read_far_ptr s pos) as [[pos' q]|e] eqn:X.
      + right. apply (read_far_ptr_spec s pos w pos' q W), X.
      + specialize (O e eq_refl). unfold Properties_Hostile.malformed in O. intros ->. destruct O as [O|[O|O]]; discriminate O.
    - pose proof (proj1 L) as HB. unfold c_read_far_ptr. destruct (soffs s) as [t|] eqn:S; [|discriminate].
      destruct (c_read_ptr_eq s pos ltac:(lia) P) as [(p & E1 & _)|(_ & ->)]; [apply read_ptr_word in E1; congruence|]. cbn [bind].
      change (C_FAR_TARGET 0) with 0. change (c_mul (C_FAR_OFFSET 0) 8) with 0. change (C_FAR_LANDING_PAD 0 =? 0) with true. cbv iota.
      destruct (offsets_get_cases s t 0 S L) as [(x & X & XR)|X]; rewrite X; cbn [bind]; [|discriminate].
      rewrite to_long_ok by lia. cbn [bind].
      destruct (c_read_ptr_eq s (x + 0) ltac:(lia) ltac:(lia)) as [(q & E1 & -> & _)|(_ & ->)]; cbn [bind]; [|left; reflexivity].
      right. replace (x + 0) with (x + 8 * p_faroff 0) by (change (p_faroff 0) with 0; lia). apply far_one; [reflexivity| |].
      + apply (offsets_get_ok s t _ _ S); [vm_compute; discriminate|exact X].
      + change (p_faroff 0) with 0. apply read_ptr_word. replace (x + 8 * 0) with (x + 0) by lia. exact E1.
  Qed.

  Variable s : seg.
  Variables p0 pos0 : Z.
  Hypothesis T : tame s p0 pos0.
  Hypothesis LS : long_seg s.
  Hypothesis P0 : - 2 ^ 61 <= pos0 <= 2 ^ 61.

  Lemma visits_pos p pos : visits s p0 pos0 p pos -> - 2 ^ 62 <= pos <= 2 ^ 62.
  Proof.
    intros V. pose proof (proj1 LS) as HB. destruct V as [|p pos i q V K I W|p pos i q V K T6 I W|p pos t i j q V K T7 Wt I J W|p pos q pos' V K F]; [lia|..].
    1-3: apply word_pos in W; lia.
    assert (SS : forall k st, seg_start s k = Some st -> 0 <= st <= blen (sbuf s)).
    { intros k st H. destruct LS as (_ & TB). unfold seg_start in H. destruct (soffs s) as [t|]; [|discriminate].
      destruct (0 <=? k); [|discriminate]. rewrite Forall_forall in TB. apply TB. eapply nth_error_In. exact H. }
    destruct F as [st q P1 S W|st q tag st2 P1 S W Wt Kq Pq Ot S2].
    - apply word_pos in W. lia.
    - specialize (SS _ _ S2). pose proof (p_faroff_range q). lia.
  Qed.

  Lemma copy_post fuel : forall p pos a dp n, visits s p0 pos0 p pos ->
    cb_good a -> 0 <= dp -> dp + 8 <= cb_end a -> n <= cb_end a -> post n dp a (c_copy_pointer junk fuel s p pos a dp).
  Proof.
    induction fuel as [|fuel IH]; intros p pos a dp n V G D E N; [discriminate|].
    assert (R : forall p pos a dp n, visits s p0 pos0 p pos ->
      cb_good a -> 0 <= dp -> dp + 8 <= cb_end a -> n <= cb_end a -> post n dp a (c_copy_pointer junk fuel s p pos a dp)) by exact IH.
    clear IH. unfold c_copy_pointer in *. cbn [g_copy].
    destruct (T _ _ V) as [NB FI]. unfold not_before in NB. unfold items_fit in FI.
    pose proof (p_dsize_range p) as RD. pose proof (p_psize_range p) as RP. pose proof (p_lcount_range p) as RL.
    assert (G0 : 0 <= cb_end a) by (destruct G; lia).
    rewrite kind_spec. unfold STRUCT, LIST, FAR. destruct (p_kind p =? 0) eqn:K0.
    - unfold g_struct. rewrite deref_spec, data_size_spec, ptrs_size_spec.
      destruct (p_dsize p + p_psize p =? 0) eqn:Z0.
      + destruct (write_ptr_post n dp a (new_struct (-1) 0 0) G D E) as (st & -> & _ & K). exact K.
      + destruct (alloc_struct_post n dp a (p_dsize p) (p_psize p) G D E N) as (st & -> & E1 & K1); [lia|lia|]. cbn [bind].
        unfold check_bounds. destruct (_ <? _) eqn:C; cbn [bind]; [discriminate|].
        destruct (slice_post n dp st (cb_end a) (sbuf s) (p_target p pos) (p_dsize p * 8)) as (st2 & -> & E2 & K2); try lia.
        { apply K1. } 
        cbn [bind].
        assert (X : post n dp st2 (g_many_ptrs cb c_read_int64_fast (c_copy_pointer junk fuel) (p_psize p) s
                    (p_target p pos + p_dsize p * 8) st2 (cb_end a + p_dsize p * 8))).
        { apply (post_weaken n dp (cb_end a + p_dsize p * 8)); [|lia].
          apply many_post with (V := visits s p0 pos0); [exact R| | | | | | |]; try lia; [|apply K2].
          intros i q I W. replace (p_target p pos + p_dsize p * 8 + 8 * i) with (p_target p pos + 8 * (p_dsize p + i)) in * by lia.
          apply v_struct; [exact V|lia|exact I|exact W]. }
        unfold c_copy_pointer in X. destruct (g_many_ptrs _ _ _ _ _ _ _ _) as [st3|e]; [|exact X].
        eapply ck_trans; [exact K1|]. eapply ck_trans; [exact K2|exact X].
    - destruct (p_kind p =? 1) eqn:K1.
      + rewrite size_tag_spec. unfold LIST_SIZE_COMPOSITE, LIST_SIZE_PTR.
        destruct (p_ltag p =? 7) eqn:T7; [|destruct (p_ltag p =? 6) eqn:T6].
        * unfold g_list_composite. rewrite deref_spec, item_count_spec. unfold check_bounds. destruct (_ <? _) eqn:C; cbn [bind]; [discriminate|].
          destruct (fast_word s (p_target p pos)) as (t & -> & W); [lia|lia|]. cbn [bind].
          rewrite offset_spec, data_size_spec, ptrs_size_spec.
          specialize (FI ltac:(lia) ltac:(lia) t W). pose proof (p_dsize_range t) as RDt. pose proof (p_psize_range t) as RPt.
          destruct (alloc_list_post n dp a LIST_SIZE_COMPOSITE (p_lcount p) ((p_lcount p + 1) * 8) G D E N) as (st & -> & E1 & K2); [lia|]. cbn [bind].
          destruct (slice_post n dp st (cb_end a) (sbuf s) (p_target p pos) ((p_lcount p + 1) * 8)) as (st2 & -> & E2 & K3); try lia.
          { apply K2. }
          cbn [bind].
          assert (X : post n dp st2 (g_items_loop cb c_read_int64_fast (c_copy_pointer junk fuel) (Z.to_nat (p_off t))
                       ((p_dsize t + p_psize t) * 8) (p_psize t) s (p_target p pos + (8 + p_dsize t * 8)) st2 (cb_end a + (8 + p_dsize t * 8)))).
          { apply (post_weaken n dp (cb_end a + (8 + p_dsize t * 8))); [|lia].
            assert (Q : Z.of_nat (Z.to_nat (p_off t)) * (p_dsize t + p_psize t) <= p_lcount p).
            { destruct (Z.le_gt_cases 0 (p_off t)); [rewrite Z2Nat.id by lia; exact FI|].
              replace (Z.to_nat (p_off t)) with O by lia. cbn. lia. }
            apply items_post with (V := visits s p0 pos0); [exact R| | | | | | | |]; try lia; [|apply K3].
            intros i j q I J Wq. replace (p_target p pos + (8 + p_dsize t * 8) + 8 * (i * (p_dsize t + p_psize t) + j))
              with (p_target p pos + 8 * (1 + i * (p_dsize t + p_psize t) + p_dsize t + j)) in * by lia.
            eapply v_item; try eassumption; lia. }
          unfold c_copy_pointer in X. destruct (g_items_loop _ _ _ _ _ _ _ _ _ _) as [st3|e]; [|exact X].
          eapply ck_trans; [exact K2|]. eapply ck_trans; [exact K3|exact X].
        * unfold g_list_ptr. rewrite deref_spec, item_count_spec.
          destruct (alloc_list_post n dp a LIST_SIZE_PTR (p_lcount p) (p_lcount p * 8) G D E N) as (st & -> & E1 & K2); [lia|]. cbn [bind].
          unfold check_bounds. destruct (_ <? _) eqn:C; cbn [bind]; [discriminate|].
          assert (X : post n dp st (g_many_ptrs cb c_read_int64_fast (c_copy_pointer junk fuel) (p_lcount p) s (p_target p pos) st (cb_end a))).
          { apply (post_weaken n dp (cb_end a)); [|lia].
            apply many_post with (V := visits s p0 pos0); [exact R| | | | | | |]; try lia; [|apply K2].
            intros i q I W. apply v_list; [exact V|lia|lia|exact I|exact W]. }
          unfold c_copy_pointer in X. destruct (g_many_ptrs _ _ _ _ _ _ _ _) as [st3|e]; [|exact X].
          eapply ck_trans; [exact K2|exact X].
        * unfold g_list_primitive. rewrite deref_spec, item_count_spec, size_tag_spec.
          set (body := if _ =? LIST_SIZE_BIT then _ else _).
          assert (B : 0 <= body).
          { unfold body. destruct (p_ltag p =? LIST_SIZE_BIT) eqn:T1; [lia|]. unfold LIST_SIZE_BIT in T1.
            assert (RT : 0 <= p_ltag p < 8) by (unfold p_ltag; lia).
            assert (CS : p_ltag p = 0 \/ p_ltag p = 2 \/ p_ltag p = 3 \/ p_ltag p = 4 \/ p_ltag p = 5) by lia.
            assert (LL : 0 <= list_item_length (p_ltag p)) by (destruct CS as [->|[->|[->|[->| ->]]]]; vm_compute; discriminate). nia. }
          destruct (alloc_list_post n dp a (p_ltag p) (p_lcount p) body G D E N B) as (st & -> & E1 & K2). cbn [bind].
          unfold check_bounds. destruct (_ <? _) eqn:C; cbn [bind]; [discriminate|].
          destruct (slice_post n dp st (cb_end a) (sbuf s) (p_target p pos) body) as (st2 & -> & E2 & K3); try lia.
          { apply K2. }
          eapply ck_trans; [exact K2|exact K3].
      + destruct (p_kind p =? 2) eqn:K2; [|apply ck_refl; exact G].
        pose proof (far_cases s pos LS (visits_pos _ _ V)) as O.
        destruct (c_read_far_ptr s pos) as [[pos' q]|e] eqn:X; cbn [bind]; [|exact O].
        destruct O as [->|O]; [exact (null_post fuel s pos' n dp a G D E)|].
        apply R; try assumption. eapply v_far; try eassumption. lia.
  Qed.
End junk.
