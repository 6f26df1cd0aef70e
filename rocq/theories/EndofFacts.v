(** endof: what it answers on canonical encodings, and what its answer means. *)
From Verif Require Import Base BaseFacts Spec Ptr PtrFacts Segment Endof Enc EncFacts SegmentFacts CopyFacts EncDen.
From Coq Require Import ZifyBool ZifyNat.

Ltac Zify.zify_post_hook ::= Z.div_mod_to_equations.

(** ** endof on the canonical encoding *)

(** No pointer to an empty struct, no slack after the items of a composite
    list. *)
Definition packed1 (v : value) : Prop :=
  match v with
  | VStruct d vs => 0 < blen d + blen vs
  | VComp _ _ _ slack => slack = []
  | _ => True
  end.
Definition packed := vall packed1.

Definition endof_ok (v : value) : Prop :=
  forall s p pos base off fuel,
    v <> VNull ->
    reads p (ptr_word v off) -> - 2 ^ 29 <= off < 2 ^ 29 ->
    base = pos + 8 + 8 * off -> base mod 8 = 0 ->
    blen (content v) <= 2 ^ 32 ->
    at_ s base (content v) ->
    (vdepth v <= fuel)%nat ->
    endof fuel s p pos = Ok (base + blen (content v)).

Lemma at_read s pos w : at_ s pos (le_enc 8 w) -> read_ptr s pos = Ok (to_signed 64 (w mod 2 ^ 64)).
Proof. intros H. apply read_ptr_word. apply at_word. exact H. Qed.

Lemma reads_nonzero p w : reads p w -> 0 < w < 2 ^ 64 -> p <> 0.
Proof. intros [_ H] Hw ->. rewrite Z.mod_0_l, Z.mod_small in H by lia. lia. Qed.

Lemma ptr_word_pos v off :
  wf1 v -> packed1 v -> v <> VNull -> 0 < ptr_word v off < 2 ^ 64.
Proof.
  intros Hw Hp Hn. destruct v as [|d vs|t c b|vs|ds ps items sl]; try congruence;
    cbn [wf1 packed1 ptr_word] in *; nonneg.
  - destruct Hw as (H1 & H2 & H3). destruct (_ =? 0) eqn:E; [lia|].
    unfold w_struct. lia.
  - unfold w_list. lia.
  - unfold w_list. lia.
  - destruct Hw as (H1 & H2 & H3 & H4 & H5 & H6).
    set (n := (ds + ps) * blen items + blen sl / 8) in *.
    assert (0 <= n) by (unfold n; nia). unfold w_list. lia.
Qed.

Lemma ptr_word_target v off p pos :
  wf1 v -> packed1 v -> v <> VNull -> - 2 ^ 29 <= off < 2 ^ 29 ->
  reads p (ptr_word v off) -> p_target p pos = pos + 8 + 8 * off.
Proof.
  intros Hw Hp Hn Ho Hr. pose proof (reads_fields _ _ Hr) as (_ & F2 & _).
  unfold p_target. rewrite F2. f_equal. f_equal.
  destruct v as [|d vs|t c b|vs|ds ps items sl]; try congruence;
    cbn [wf1 packed1 ptr_word] in *; nonneg.
  - destruct Hw as (H1 & H2 & H3). destruct (_ =? 0) eqn:E; [lia|].
    apply w_struct_off; lia.
  - apply w_list_off; lia.
  - apply w_list_off; lia.
  - destruct Hw as (H1 & H2 & H3 & H4 & H5 & H6). apply w_list_off; try lia.
Qed.

Lemma endof_ptrs_enc vs :
  Forall endof_ok vs -> Forall wfv vs -> Forall packed vs ->
  forall s pos base off fuel,
    base = pos + 8 + 8 * off -> pos + 8 * blen vs <= base -> base mod 8 = 0 ->
    base + blen (contents (vcs_of vs)) - pos <= 2 ^ 32 ->
    at_ s pos (ptr_words (vcs_of vs) off) ->
    at_ s base (contents (vcs_of vs)) ->
    (list_max (map vdepth vs) <= fuel)%nat ->
    endof_ptrs (endof fuel) (length vs) s pos base = Ok (base + blen (contents (vcs_of vs))).
Proof.
  intros H. induction H as [|v vs Hv Hvs IH];
    intros Hwf Hpk s pos base off fuel Hbase Hgap Hb8 Hlen Hp Hc Hf; cbn [length endof_ptrs].
  - cbn [vcs_of map contents concat]. change (blen (@nil byte)) with 0. f_equal. lia.
  - inversion Hwf as [|? ? Hw1 Hw2]; subst. inversion Hpk as [|? ? Hk1 Hk2]; subst.
    pose proof (content_mod v Hw1) as Hm.
    rewrite blen_contents_cons in *. rewrite blen_cons in Hgap. nonneg.
    cbn [vcs_of map ptr_words] in Hp. fold (vcs_of vs) in Hp.
    cbn [vcs_of map] in Hc. fold (vcs_of vs) in Hc. rewrite contents_cons in Hc.
    apply at_app in Hp. destruct Hp as [Hp1 Hp2]. apply at_app in Hc. destruct Hc as [Hc1 Hc2].
    rewrite blen_le_enc in Hp2. change (Z.of_nat 8) with 8 in Hp2.
    cbn [map] in Hf. rewrite list_max_cons in Hf.
    rewrite (at_read _ _ _ Hp1). cbn [bind].
    set (p := to_signed 64 _) in *.
    assert (Hr : reads p (ptr_word v off)) by apply reads_signed.
    assert (Hnull : v = VNull \/ v <> VNull) by (destruct v; auto; right; discriminate).
    destruct Hnull as [->|Hnn].
    + rewrite (reads_zero p) by exact Hr. cbn [Z.eqb content] in *.
      change (blen (@nil byte)) with 0 in *.
      rewrite (IH Hw2 Hk2 s (pos + 8) (pos + 8 + 8 * off) (off - 1 + 0 / 8) fuel);
        try assumption; try lia.
      * f_equal.
      * replace (pos + 8 + 8 * off) with (pos + 8 + 8 * off + 0) by lia. exact Hc2.
    + assert (Hoff : - 2 ^ 29 <= off < 2 ^ 29) by lia.
      apply vall_root in Hw1 as Hw1'. apply vall_root in Hk1 as Hk1'.
      pose proof (ptr_word_pos v off Hw1' Hk1' Hnn) as Hpp.
      destruct (p =? 0) eqn:E0; [exfalso; apply (reads_nonzero _ _ Hr Hpp); lia|].
      rewrite deref_spec, (ptr_word_target v off p pos) by assumption.
      rewrite Z.eqb_refl. cbn [negb].
      rewrite (Hv s p pos (pos + 8 + 8 * off) off fuel); try assumption; try lia.
      cbn [bind].
      rewrite (IH Hw2 Hk2 s (pos + 8) (pos + 8 + 8 * off + blen (content v))
                 (off - 1 + blen (content v) / 8) fuel); try assumption; try lia.
      f_equal. lia.
Qed.

Lemma endof_items_enc ds ps items :
  0 <= ds -> 0 <= ps ->
  Forall (fun it => Forall endof_ok (snd it)) items ->
  Forall (fun it => Forall wfv (snd it)) items ->
  Forall (fun it => Forall packed (snd it)) items ->
  Forall (fun it => blen (fst it) = 8 * ds /\ blen (snd it) = ps) items ->
  forall s pos rem fuel,
    0 <= pos -> (pos + 8 * rem) mod 8 = 0 ->
    (ds + ps) * blen items <= rem ->
    8 * rem + blen (icontents (ics_of items)) <= 2 ^ 32 ->
    at_ s pos (item_words ds ps (ics_of items) rem) ->
    at_ s (pos + 8 * rem) (icontents (ics_of items)) ->
    (list_max (map (fun it => list_max (map vdepth (snd it))) items) <= fuel)%nat ->
    endof_items (endof fuel) (length items) s (pos + 8 * ds) ((ds + ps) * 8) ps (pos + 8 * rem)
      = Ok (pos + 8 * rem + blen (icontents (ics_of items))).
Proof.
  intros Hds Hps H. induction H as [|[d vs] items Hv Hvs IH];
    intros Hwf Hpk Hsz s pos rem fuel Hpos Ha8 Hgap Hlen Hp Hc Hf; cbn [length endof_items].
  - cbn [ics_of map icontents concat]. change (blen (@nil byte)) with 0. f_equal. lia.
  - inversion Hwf as [|? ? Hw1 Hw2]; subst. inversion Hsz as [|? ? [Hs1 Hs2] Hs3]; subst.
    inversion Hpk as [|? ? Hk1 Hk2]; subst.
    cbn [fst snd] in *.
    assert (Hm : blen (contents (vcs_of vs)) mod 8 = 0).
    { apply contents_mod. unfold vcs_of. rewrite Forall_map. cbn [snd].
      eapply Forall_impl; [|exact Hw1]. intros. apply content_mod. assumption. }
    cbn [ics_of map fst snd] in *. fold (ics_of items) in *.
    rewrite icontents_cons in *. rewrite blen_app in *. cbn [item_words] in Hp.
    apply at_app in Hp. destruct Hp as [Hp1 Hp2]. apply at_app in Hp2. destruct Hp2 as [Hp2 Hp3].
    apply at_app in Hc. destruct Hc as [Hc1 Hc2].
    rewrite blen_ptr_words, blen_vcs_of in Hp3.
    rewrite blen_cons in Hgap. nonneg.
    rewrite list_max_cons in Hf.
    set (n := blen items) in *.
    assert (Hn : 0 <= (ds + blen vs) * n) by nia.
    replace ((ds + blen vs) * (n + 1)) with ((ds + blen vs) * n + ds + blen vs) in Hgap by lia.
    replace (Z.to_nat (blen vs)) with (length vs) by (unfold blen; lia).
    rewrite Hs1 in Hp2.
    rewrite (endof_ptrs_enc vs Hv Hw1 Hk1 s (pos + 8 * ds) (pos + 8 * rem) (rem - ds - 1) fuel);
      try assumption; try lia.
    cbn [bind].
    destruct (_ =? -1) eqn:E1; [lia|].
    set (c := blen (contents (vcs_of vs))) in *.
    specialize (IH Hw2 Hk2 Hs3 s (pos + 8 * (ds + blen vs)) (rem - (ds + blen vs) + c / 8) fuel).
    replace (pos + 8 * ds + (ds + blen vs) * 8) with (pos + 8 * (ds + blen vs) + 8 * ds) by lia.
    replace (pos + 8 * rem + c)
      with (pos + 8 * (ds + blen vs) + 8 * (rem - (ds + blen vs) + c / 8)) by lia.
    rewrite IH; try assumption; try lia.
    + f_equal. lia.
    + replace (pos + 8 * (ds + blen vs)) with (pos + blen d + 8 * blen vs) by lia. exact Hp3.
    + replace (pos + 8 * (ds + blen vs) + 8 * (rem - (ds + blen vs) + c / 8))
        with (pos + 8 * rem + c) by lia. exact Hc2.
Qed.

Lemma endof_body_enc d vs s base fuel :
  Forall endof_ok vs -> Forall wfv vs -> Forall packed vs ->
  blen d mod 8 = 0 -> base mod 8 = 0 ->
  blen (content (VStruct d vs)) <= 2 ^ 32 ->
  at_ s base (content (VStruct d vs)) ->
  (list_max (map vdepth vs) <= fuel)%nat ->
  endof_struct (endof fuel) s base (blen d / 8) (blen vs)
  = Ok (base + blen (content (VStruct d vs))).
Proof.
  intros He Hw Hk Hd8 Hb8 Hlen Hat Hf.
  rewrite content_struct in *. rewrite !blen_app, blen_ptr_words, blen_vcs_of in *.
  apply at_app in Hat. destruct Hat as [Ha1 Ha2].
  apply at_app in Ha2. destruct Ha2 as [Ha2 Ha3].
  rewrite blen_ptr_words, blen_vcs_of in Ha3. nonneg.
  unfold endof_struct.
  replace (Z.to_nat (blen vs)) with (length vs) by (unfold blen; lia).
  replace (base + blen d / 8 * 8) with (base + blen d) by lia.
  rewrite (endof_ptrs_enc vs He Hw Hk s (base + blen d) (base + blen d + blen vs * 8)
             (blen vs - 1) fuel); try assumption; try lia.
  - f_equal. lia.
  - replace (base + blen d + blen vs * 8) with (base + blen d + 8 * blen vs) by lia. exact Ha3.
Qed.

Lemma endof_enc v : wfv v -> packed v -> endof_ok v.
Proof.
  unfold wfv, packed.
  induction v as [|d vs IH|t c b|vs IH|ds ps items sl IH] using value_ind'; intros Hwf Hpk;
    intros s p pos base off fuel Hnn Hr Hoff Hbase Hb8 Hlen Hat Hf; [congruence| | | | ];
    (destruct fuel as [|fuel]; [cbn [vdepth] in Hf; lia|]); cbn [endof];
    rewrite kind_spec, deref_spec; cbn [vdepth] in Hf.
  - apply (proj1 (vall_struct _ _ _)) in Hwf. destruct Hwf as [(Hw1 & Hw2 & Hw3) Hw4].
    apply (proj1 (vall_struct _ _ _)) in Hpk. destruct Hpk as [Hk1 Hk2]. cbn [packed1] in Hk1.
    assert (Hall : Forall endof_ok vs) by (rewrite Forall_forall in *; auto).
    pose proof (reads_fields _ _ Hr) as (F1 & F2 & F3 & F4 & _).
    cbn [ptr_word] in *. destruct (blen d + blen vs =? 0) eqn:E0; [lia|]. nonneg.
    rewrite w_struct_kind in F1. rewrite w_struct_off in F2 by lia.
    rewrite w_struct_dsize in F3 by lia. rewrite w_struct_psize in F4 by lia.
    assert (Et : p_target p pos = base) by (unfold p_target; rewrite F2; lia).
    rewrite F1, Et, data_size_spec, ptrs_size_spec, F3, F4. cbn [Z.eqb STRUCT].
    apply endof_body_enc; auto. lia.
  - apply (proj1 (vall_vlist _ _ _ _)) in Hwf. destruct Hwf as (Hw1 & Hw2 & Hw3).
    pose proof (reads_fields _ _ Hr) as (F1 & F2 & _ & _ & F5 & F6).
    cbn [ptr_word content] in *. rewrite blen_pad8.
    rewrite w_list_kind in F1. rewrite w_list_off in F2 by lia.
    rewrite w_list_tag in F5 by lia. rewrite w_list_count in F6 by lia.
    assert (Et : p_target p pos = base) by (unfold p_target; rewrite F2; lia).
    rewrite F1, Et, size_tag_spec, item_count_spec, F5, F6. cbn [Z.eqb Pos.eqb STRUCT LIST].
    rewrite Hw3. unfold list_bytes, endof_list_bit, endof_list_primitive.
    rewrite !round_up_spec.
    change LIST_SIZE_COMPOSITE with 7. change LIST_SIZE_PTR with 6. change LIST_SIZE_BIT with 1.
    assert (Hc : t = 0 \/ t = 1 \/ t = 2 \/ t = 3 \/ t = 4 \/ t = 5) by lia.
    assert (L0 : list_item_length 0 = 0) by reflexivity.
    assert (L2 : list_item_length 2 = 1) by reflexivity.
    assert (L3 : list_item_length 3 = 2) by reflexivity.
    assert (L4 : list_item_length 4 = 4) by reflexivity.
    assert (L5 : list_item_length 5 = 8) by reflexivity.
    destruct Hc as [->|[->|[->|[->|[->| ->]]]]]; cbn [Z.eqb Pos.eqb];
      rewrite ?L0, ?L2, ?L3, ?L4, ?L5; f_equal; lia.
  - apply (proj1 (vall_ptrs _ _)) in Hwf. destruct Hwf as [Hw1 Hw4]. unfold wf1 in Hw1.
    apply (proj1 (vall_ptrs _ _)) in Hpk. destruct Hpk as [_ Hk2].
    assert (Hall : Forall endof_ok vs) by (rewrite Forall_forall in *; auto).
    pose proof (reads_fields _ _ Hr) as (F1 & F2 & _ & _ & F5 & F6).
    rewrite content_ptrs in *. rewrite !blen_app, blen_ptr_words, blen_vcs_of in *.
    apply at_app in Hat. destruct Hat as [Ha2 Ha3].
    rewrite blen_ptr_words, blen_vcs_of in Ha3. nonneg. cbn [ptr_word] in *.
    rewrite w_list_kind in F1. rewrite w_list_off in F2 by lia.
    rewrite w_list_tag in F5 by lia. rewrite w_list_count in F6 by lia.
    assert (Et : p_target p pos = base) by (unfold p_target; rewrite F2; lia).
    rewrite F1, Et, size_tag_spec, item_count_spec, F5, F6. cbn [Z.eqb Pos.eqb STRUCT LIST LIST_SIZE_COMPOSITE LIST_SIZE_PTR].
    unfold endof_list_ptr.
    replace (Z.to_nat (blen vs)) with (length vs) by (unfold blen; lia).
    rewrite (endof_ptrs_enc vs Hall Hw4 Hk2 s base (base + 8 * blen vs) (blen vs - 1) fuel);
      try assumption; try lia.
    f_equal. lia.
  - apply (proj1 (vall_comp _ _ _ _ _)) in Hwf.
    destruct Hwf as [(Hw1 & Hw2 & Hw3 & Hw4 & Hw5 & Hw6) Hw7].
    apply (proj1 (vall_comp _ _ _ _ _)) in Hpk. destruct Hpk as [Hk1 Hk2]. cbn [packed1] in Hk1.
    subst sl. change (blen (@nil byte)) with 0 in *.
    assert (Hall : Forall (fun it : bytes * list value => Forall endof_ok (snd it)) items).
    { rewrite Forall_forall in *. intros it Hit. specialize (IH it Hit). specialize (Hw7 it Hit).
      specialize (Hk2 it Hit). rewrite Forall_forall in *. auto. }
    pose proof (reads_fields _ _ Hr) as (F1 & F2 & _ & _ & F5 & F6).
    rewrite content_comp in *. change (blen (@nil byte)) with 0 in *.
    cbn [app] in *. rewrite !blen_app, blen_le_enc in *.
    rewrite blen_item_words in * by (apply ics_of_sizes; exact Hw3).
    rewrite blen_ics_of in *.
    apply at_app in Hat. destruct Hat as [Ha1 Ha2].
    apply at_app in Ha2. destruct Ha2 as [Ha2 Ha3].
    rewrite blen_le_enc in *. change (Z.of_nat 8) with 8 in *.
    rewrite blen_item_words in Ha3 by (apply ics_of_sizes; exact Hw3).
    rewrite blen_ics_of in *. nonneg. cbn [ptr_word] in *.
    change (blen (@nil byte)) with 0 in *.
    assert (HIS : 0 <= (ds + ps) * blen items) by nia.
    rewrite w_list_kind in F1. rewrite w_list_off in F2 by lia.
    rewrite w_list_tag in F5 by lia.
    assert (Et : p_target p pos = base) by (unfold p_target; rewrite F2; lia).
    rewrite F1, Et, size_tag_spec, F5. cbn [Z.eqb Pos.eqb STRUCT LIST LIST_SIZE_COMPOSITE LIST_SIZE_PTR].
    rewrite (at_read _ _ _ Ha1). cbn [bind].
    set (tag := to_signed 64 _).
    pose proof (reads_fields tag _ (reads_signed _)) as (T1 & T2 & T3 & T4 & _).
    rewrite w_struct_off in T2 by lia.
    rewrite w_struct_dsize in T3 by lia. rewrite w_struct_psize in T4 by lia.
    rewrite offset_spec, data_size_spec, ptrs_size_spec, T2, T3, T4.
    assert (Hb0 : 0 <= base) by (destruct Ha1; lia).
    replace (Z.to_nat (blen items)) with (length items) by (unfold blen; lia).
    unfold endof_list_composite.
    assert (Hic : ps = 0 -> blen (icontents (ics_of items)) = 0).
    { intros ->. clear - Hw3. induction Hw3 as [|[d vs] items [H1 H2] H3 IH]; [reflexivity|].
      cbn [fst snd ics_of map] in *. rewrite icontents_cons, blen_app.
      apply blen_0_nil in H2. subst vs. exact IH. }
    destruct (ps =? 0) eqn:Ep.
    + rewrite Hic by lia. f_equal. lia.
    + set (IS := (ds + ps) * blen items) in *.
      assert (G : (ds + ps) * blen items <= IS + 0 / 8) by (fold IS; lia).
      assert (E : endof_items (endof fuel) (length items) s (base + 8 + 8 * ds) ((ds + ps) * 8) ps
                    (base + 8 + 8 * (IS + 0 / 8)) =
                  Ok (base + 8 + 8 * (IS + 0 / 8) + blen (icontents (ics_of items)))).
      { apply endof_items_enc; try assumption; try lia.
        - replace (base + 8 + 8 * (IS + 0 / 8)) with (base + 8 + 8 * IS) by lia. exact Ha3.
        - apply le_S_n. exact Hf. }
      replace (Z.to_nat (blen items)) with (length items) by (unfold blen; lia).
      replace (base + 8 + ds * 8) with (base + 8 + 8 * ds) by lia.
      replace (base + 8 + (ds + ps) * 8 * blen items) with (base + 8 + 8 * (IS + 0 / 8)).
      2:{ unfold IS. change (0 / 8) with 0. lia. }
      rewrite E. f_equal. lia.
Qed.

(** ** what the answer of endof means *)

Definition noslack1 (v : value) : Prop :=
  match v with VComp _ _ _ slack => slack = [] | _ => True end.
Definition noslack := vall noslack1.

(** [s'] has the bytes [lo, hi) of [s], moved by [d]. *)
Definition moved (s s' : seg) (lo hi d : Z) : Prop :=
  0 <= lo /\ hi <= slen s /\ 0 <= lo + d /\ hi + d <= slen s' /\
  forall i n, lo <= i -> 0 <= n -> i + n <= hi ->
    sub (sbuf s') (i + d) n = sub (sbuf s) i n.

Lemma moved_bytes s s' lo hi d pos n b :
  moved s s' lo hi d -> lo <= pos -> 0 <= n -> pos + n <= hi ->
  bytes_at s pos n = Some b -> bytes_at s' (pos + d) n = Some b.
Proof.
  intros (M1 & M2 & M3 & M4 & M5) H1 H2 H3 H. apply bytes_at_some in H.
  destruct H as (_ & _ & _ & -> & _).
  rewrite bytes_at_ok by lia. rewrite M5 by lia. reflexivity.
Qed.

Lemma moved_word s s' lo hi d pos p :
  moved s s' lo hi d -> lo <= pos -> pos + 8 <= hi ->
  word_at s pos = Some p -> word_at s' (pos + d) = Some p.
Proof.
  intros (M1 & M2 & M3 & M4 & M5) H1 H3 H. apply word_at_some in H.
  destruct H as (_ & _ & ->).
  rewrite word_at_ok by lia. rewrite M5 by lia. reflexivity.
Qed.

Lemma target_shift p pos d : p_target p (pos + d) = p_target p pos + d.
Proof. unfold p_target. lia. Qed.

Lemma endof_ptrs_minus s pos n vs fuel e :
  den_ptrs s pos n vs -> endof_ptrs (endof fuel) n s pos (-1) = Ok e -> e = -1.
Proof.
  intros H. revert e. induction H as [pos H|pos n p v vs Hw Hd Hds IH]; intros e He; cbn [endof_ptrs] in He.
  - congruence.
  - apply read_ptr_word in Hw. rewrite Hw in He. cbn [bind] in He.
    destruct (p =? 0) eqn:E0; [auto|].
    rewrite deref_spec in He.
    destruct (p_target p pos =? -1) eqn:E1; cbn [negb] in He; [|congruence].
    apply bind_ok in He. destruct He as (e1 & He1 & He).
    destruct fuel as [|fuel]; [discriminate|].
    inversion Hd; subst; try lia.
    + match goal with H : bytes_at _ _ _ = Some _ |- _ => apply bytes_at_some in H; lia end.
    + match goal with H : bytes_at _ _ _ = Some _ |- _ => apply bytes_at_some in H; lia end.
    + match goal with H : word_at _ (p_target _ _) = Some _ |- _ => apply word_at_some in H; lia end.
    + cbn [endof] in He1. rewrite kind_spec in He1.
      match goal with H : p_kind p = 2 |- _ => rewrite H in He1 end.
      cbn [Z.eqb Pos.eqb STRUCT LIST FAR] in He1. injection He1 as <-. auto.
Qed.

Lemma den_target_nonneg s p pos v :
  den s p pos v -> p <> 0 -> p_kind p <> 2 -> 0 <= p_target p pos.
Proof.
  intros H H0 Hk. inversion H; subst; try congruence.
  - match goal with H : bytes_at _ _ _ = Some _ |- _ => apply bytes_at_some in H; lia end.
  - match goal with H : bytes_at _ _ _ = Some _ |- _ => apply bytes_at_some in H; lia end.
  - match goal with H : word_at _ (p_target _ _) = Some _ |- _ => apply word_at_some in H; lia end.
Qed.

Lemma endof_far fuel s p pos e : p_kind p = 2 -> endof fuel s p pos = Ok e -> e = -1.
Proof.
  intros Hk H. destruct fuel as [|fuel]; [discriminate|]. cbn [endof] in H.
  rewrite kind_spec, Hk in H. cbn [Z.eqb Pos.eqb STRUCT LIST FAR] in H. congruence.
Qed.

Lemma reloc_all s :
  (forall p pos v, den s p pos v -> p <> 0 -> noslack v ->
     forall fuel e, endof fuel s p pos = Ok e -> e <> -1 ->
     p_target p pos <= e /\
     forall s' lo hi d, moved s s' lo hi d -> lo <= p_target p pos -> e <= hi ->
       den s' p (pos + d) v) /\
  (forall pos n vs, den_ptrs s pos n vs -> Forall noslack vs ->
     forall fuel cur e, endof_ptrs (endof fuel) n s pos cur = Ok e -> e <> -1 ->
     cur <= e /\
     forall s' lo hi d, moved s s' lo hi d -> lo <= pos -> pos + 8 * Z.of_nat n <= cur -> e <= hi ->
       den_ptrs s' (pos + d) n vs) /\
  (forall pos ds ps n items, den_items s pos ds ps n items ->
     Forall (fun it => Forall noslack (snd it)) items ->
     forall fuel cur e, 0 <= ds -> 0 <= ps ->
     endof_items (endof fuel) n s (pos + 8 * ds) ((ds + ps) * 8) ps cur = Ok e -> e <> -1 ->
     cur <= e /\
     forall s' lo hi d, moved s s' lo hi d -> lo <= pos ->
       pos + 8 * ((ds + ps) * Z.of_nat n) <= cur -> e <= hi ->
       den_items s' (pos + d) ds ps n items).
Proof.
  apply den_all_ind; unfold noslack.
  - intros; congruence.
  - (* struct *)
    intros p pos data vs Hp Hk Hb Hd IH _ Hns fuel e He Hne.
    apply (proj1 (vall_struct _ _ _)) in Hns. destruct Hns as [_ Hns].
    destruct fuel as [|fuel]; [discriminate|]. cbn [endof] in He.
    rewrite kind_spec, Hk in He. cbn [Z.eqb STRUCT] in He.
    rewrite deref_spec, data_size_spec, ptrs_size_spec in He. unfold endof_struct in He.
    pose proof (p_dsize_range p). pose proof (p_psize_range p).
    replace (p_target p pos + p_dsize p * 8) with (p_target p pos + 8 * p_dsize p) in He by lia.
    destruct (IH Hns fuel _ e He Hne) as [IH1 IH2].
    split; [lia|]. intros s' lo hi d Hm Hlo Hhi.
    apply den_struct; auto.
    + rewrite target_shift. eapply moved_bytes; try exact Hb; try exact Hm; lia.
    + rewrite target_shift.
      replace (p_target p pos + d + 8 * p_dsize p) with (p_target p pos + 8 * p_dsize p + d) by lia.
      apply (IH2 s' lo hi d); auto; lia.
  - (* primitive list *)
    intros p pos body Hk Ht Hb _ _ fuel e He Hne.
    destruct fuel as [|fuel]; [discriminate|]. cbn [endof] in He.
    rewrite kind_spec, Hk in He. cbn [Z.eqb Pos.eqb STRUCT LIST] in He.
    rewrite deref_spec, size_tag_spec, item_count_spec in He.
    change LIST_SIZE_COMPOSITE with 7 in He. change LIST_SIZE_PTR with 6 in He.
    change LIST_SIZE_BIT with 1 in He.
    pose proof (p_ltag_range p) as Htr. pose proof (p_lcount_range p) as Hcr.
    assert (Hlen : p_target p pos + list_bytes (p_ltag p) (p_lcount p) <= e).
    { unfold list_bytes. unfold endof_list_bit, endof_list_primitive in He.
      rewrite !round_up_spec in He.
      assert (Hc : p_ltag p = 0 \/ p_ltag p = 1 \/ p_ltag p = 2 \/ p_ltag p = 3 \/
                   p_ltag p = 4 \/ p_ltag p = 5) by lia.
      assert (L0 : list_item_length 0 = 0) by reflexivity.
      assert (L2 : list_item_length 2 = 1) by reflexivity.
      assert (L3 : list_item_length 3 = 2) by reflexivity.
      assert (L4 : list_item_length 4 = 4) by reflexivity.
      assert (L5 : list_item_length 5 = 8) by reflexivity.
      destruct Hc as [E|[E|[E|[E|[E|E]]]]]; rewrite E in *; cbn [Z.eqb Pos.eqb] in *;
        rewrite ?L0, ?L2, ?L3, ?L4, ?L5 in He; apply ok_inj in He; lia. }
    pose proof (list_bytes_nonneg (p_ltag p) (p_lcount p) ltac:(lia)).
    split; [lia|]. intros s' lo hi d Hm Hlo Hhi.
    apply den_list; auto. rewrite target_shift.
    eapply moved_bytes; try exact Hb; try exact Hm; lia.
  - (* pointer list *)
    intros p pos vs Hk Ht Hb1 Hb2 Hd IH _ Hns fuel e He Hne.
    apply (proj1 (vall_ptrs _ _)) in Hns. destruct Hns as [_ Hns].
    destruct fuel as [|fuel]; [discriminate|]. cbn [endof] in He.
    rewrite kind_spec, Hk in He. cbn [Z.eqb Pos.eqb STRUCT LIST] in He.
    rewrite deref_spec, size_tag_spec, item_count_spec, Ht in He.
    change (6 =? LIST_SIZE_COMPOSITE) with false in He.
    change (6 =? LIST_SIZE_PTR) with true in He. cbv iota in He.
    unfold endof_list_ptr in He. pose proof (p_lcount_range p).
    destruct (IH Hns fuel _ e He Hne) as [IH1 IH2].
    split; [lia|]. intros s' lo hi d Hm Hlo Hhi.
    pose proof Hm as (M1 & M2 & M3 & M4 & M5).
    apply den_plist; rewrite ?target_shift; auto; try lia.
    apply (IH2 s' lo hi d); auto; lia.
  - (* composite list *)
    intros p pos tag items slack Hk Ht Hw Htk Hto Hd IH Hb _ Hns fuel e He Hne.
    apply (proj1 (vall_comp _ _ _ _ _)) in Hns. destruct Hns as [Hs0 Hns].
    cbn [noslack1] in Hs0. subst slack.
    destruct fuel as [|fuel]; [discriminate|]. cbn [endof] in He.
    rewrite kind_spec, Hk in He. cbn [Z.eqb Pos.eqb STRUCT LIST] in He.
    rewrite deref_spec, size_tag_spec, item_count_spec, Ht in He.
    change (7 =? LIST_SIZE_COMPOSITE) with true in He. cbv iota in He.
    apply read_ptr_word in Hw as Hr. rewrite Hr in He. cbn [bind] in He.
    rewrite offset_spec, data_size_spec, ptrs_size_spec in He.
    pose proof (p_dsize_range tag) as Hds. pose proof (p_psize_range tag) as Hps.
    apply bytes_at_some in Hb as Hb'. destruct Hb' as (Hb1 & Hb2 & Hb3 & Hb4 & Hb5).
    change (blen (@nil byte)) with 0 in Hb5.
    set (IS := (p_dsize tag + p_psize tag) * p_off tag) in *.
    assert (HIS : 0 <= IS) by (unfold IS; nia).
    apply word_at_some in Hw as Hw'. destruct Hw' as (Hw1 & Hw2 & _).
    set (T := p_target p pos) in *.
    unfold endof_list_composite in He.
    replace (T + 8 + (p_dsize tag + p_psize tag) * 8 * p_off tag) with (T + 8 + 8 * IS) in He
      by (unfold IS; lia).
    assert (Hkey : T + 8 + 8 * IS <= e /\
              forall s' lo hi d, moved s s' lo hi d -> lo <= T -> e <= hi ->
                den_items s' (T + 8 + d) (p_dsize tag) (p_psize tag) (Z.to_nat (p_off tag)) items).
    { destruct (p_psize tag =? 0) eqn:Ep.
      - apply ok_inj in He; subst e. split; [lia|]. intros s' lo hi d Hm Hlo Hhi.
        assert (Ep0 : p_psize tag = 0) by lia.
        assert (EIS : IS = p_dsize tag * p_off tag) by (unfold IS; rewrite Ep0; lia).
        clearbody IS. rewrite Ep0 in *.
        assert (G : forall n pos its ds, 0 <= ds -> den_items s pos ds 0 n its -> lo <= pos ->
                    pos + 8 * (ds * Z.of_nat n) <= hi ->
                    den_items s' (pos + d) ds 0 n its).
        { clear - Hm. induction n as [|n IHn]; intros pos its ds Hds Hd Hlo Hhi; inversion Hd; subst.
          - constructor.
          - replace (ds * Z.of_nat (S n)) with (ds * Z.of_nat n + ds) in Hhi by lia.
            assert (0 <= ds * Z.of_nat n) by nia.
            constructor.
            + eapply moved_bytes; try eassumption; lia.
            + match goal with H : den_ptrs _ _ _ _ |- _ =>
                pose proof (den_ptrs_bounds _ _ _ _ H) as Hbd;
                change (Z.to_nat 0) with 0%nat in *; inversion H; subst end.
              constructor. destruct Hm as (M1 & M2 & M3 & M4 & M5). lia.
            + replace (pos + d + 8 * (ds + 0)) with (pos + 8 * (ds + 0) + d) by lia.
              apply IHn; auto; lia. }
        apply G; auto; try lia.
      - replace (T + 8 + p_dsize tag * 8) with (T + 8 + 8 * p_dsize tag) in He by lia.
        destruct (IH Hns fuel (T + 8 + 8 * IS) e) as [I1 I2]; auto; try lia.
        split; [lia|]. intros s' lo hi d Hm Hlo Hhi.
        apply (I2 s' lo hi d); auto; try lia.
        }
    destruct Hkey as [K1 K2].
    split; [lia|]. intros s' lo hi d Hm Hlo Hhi.
    apply den_clist; auto; rewrite ?target_shift.
    + fold T. eapply moved_word; try exact Hw; try exact Hm; lia.
    + fold T. replace (T + d + 8) with (T + 8 + d) by lia. eapply K2; eauto.
    + fold T. fold IS. replace (T + d + 8 + 8 * IS) with (T + 8 + 8 * IS + d) by lia.
      eapply moved_bytes; try exact Hb; try exact Hm; lia.
  - (* far *)
    intros p pos pos' p' v Hk Hf Hk' Hp' Hd IH Hp Hns fuel e He Hne.
    exfalso. apply Hne. eapply endof_far; eauto.
  - (* no pointers *)
    intros pos Hpos _ fuel cur e He Hne. cbn [endof_ptrs] in He. apply ok_inj in He; subst e.
    split; [lia|]. intros s' lo hi d (M1 & M2 & M3 & M4 & M5) H1 H2 H3. constructor. lia.
  - (* pointers *)
    intros pos n p v vs Hw Hd IH Hds IHs Hns fuel cur e He Hne.
    inversion Hns as [|? ? Hn1 Hn2]; subst.
    cbn [endof_ptrs] in He. apply read_ptr_word in Hw as Hr. rewrite Hr in He. cbn [bind] in He.
    destruct (p =? 0) eqn:E0.
    + assert (p = 0) by lia. subst p. apply den_zero in Hd. subst v.
      destruct (IHs Hn2 fuel cur e He Hne) as [I1 I2].
      split; [exact I1|]. intros s' lo hi d Hm Hlo Hcur Hhi.
      apply dp_cons with (p := 0).
      * eapply moved_word; try exact Hw; try exact Hm; lia.
      * constructor.
      * replace (pos + d + 8) with (pos + 8 + d) by lia. apply (I2 s' lo hi d); auto; lia.
    + rewrite deref_spec in He.
      destruct (p_target p pos =? cur) eqn:E1; cbn [negb] in He; [|congruence].
      apply bind_ok in He. destruct He as (e1 & He1 & He).
      assert (He1' : e1 <> -1).
      { intros ->. apply Hne. eapply endof_ptrs_minus; eauto. }
      destruct (IH ltac:(lia) Hn1 fuel e1 He1 He1') as [J1 J2].
      destruct (IHs Hn2 fuel e1 e He Hne) as [I1 I2].
      split; [lia|]. intros s' lo hi d Hm Hlo Hcur Hhi.
      apply dp_cons with (p := p).
      * eapply moved_word; try exact Hw; try exact Hm; lia.
      * apply (J2 s' lo hi d); auto; lia.
      * replace (pos + d + 8) with (pos + 8 + d) by lia. apply (I2 s' lo hi d); auto; lia.
  - (* no items *)
    intros pos ds ps _ fuel cur e _ _ He Hne. cbn [endof_items] in He. apply ok_inj in He; subst e.
    split; [lia|]. intros. constructor.
  - (* items *)
    intros pos ds ps n data vs items Hb Hd IH Hds IHs Hns fuel cur e H1 H2 He Hne.
    inversion Hns as [|? ? Hn1 Hn2]; subst. cbn [snd] in Hn1.
    cbn [endof_items] in He. apply bind_ok in He. destruct He as (e1 & He1 & He).
    destruct (e1 =? -1) eqn:E1; [congruence|].
    destruct (IH Hn1 fuel cur e1 He1 ltac:(lia)) as [J1 J2].
    replace (pos + 8 * ds + (ds + ps) * 8) with (pos + 8 * (ds + ps) + 8 * ds) in He by lia.
    destruct (IHs Hn2 fuel e1 e H1 H2 He Hne) as [I1 I2].
    split; [lia|]. intros s' lo hi d Hm Hlo Hcur Hhi.
    replace ((ds + ps) * Z.of_nat (S n)) with ((ds + ps) * Z.of_nat n + ds + ps) in Hcur by lia.
    assert (0 <= (ds + ps) * Z.of_nat n) by nia.
    constructor.
    + eapply moved_bytes; try exact Hb; try exact Hm; lia.
    + replace (pos + d + 8 * ds) with (pos + 8 * ds + d) by lia.
      apply (J2 s' lo hi d); auto; lia.
    + replace (pos + d + 8 * (ds + ps)) with (pos + 8 * (ds + ps) + d) by lia.
      apply (I2 s' lo hi d); auto; lia.
Qed.
