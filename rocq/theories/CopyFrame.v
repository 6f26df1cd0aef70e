(** Copying any bytes at all (well-formed or hostile) never changes what was
    in the builder before, except the destination pointer. *)
From Verif Require Import Base Spec BaseFacts Ptr PtrFacts Segment SegmentFacts Builder Copy.
From Coq Require Import ZifyBool ZifyNat.
Ltac Zify.zify_post_hook ::= Z.div_mod_to_equations.

(** The first [n] bytes are kept, [dp, dp+8) excepted. *)
Definition keeps (n dp : Z) (a b : bytes) : Prop :=
  n <= blen b /\ forall i, 0 <= i < n -> i < dp \/ dp + 8 <= i -> getb b i = getb a i.

Lemma keeps_trans n dp a b c : keeps n dp a b -> keeps n dp b c -> keeps n dp a c.
Proof.
  intros [H1 H2] [H3 H4]. split; [exact H3|]. intros i Hi Ho. rewrite H4 by assumption. apply H2; assumption.
Qed.

(** Writes beyond [n] are writes in an excluded place. *)
Lemma keeps_weaken n dp q a b : keeps n q a b -> n <= q -> keeps n dp a b.
Proof. intros [H1 H2] Hq. split; [exact H1|]. intros i Hi Ho. apply H2; lia. Qed.

Lemma keeps_pack n dp v a b :
  n <= blen a -> 0 <= dp -> pack_into Fq a dp v = Ok b -> keeps n dp a b /\ blen b = blen a.
Proof.
  intros Hn Hd H. unfold pack_into in H. destruct (negb _); [discriminate|].
  replace (dp <? 0) with false in H by (symmetry; lia). cbn [orb andb] in H.
  destruct ((dp <? 0) || (blen a <? dp + fsize Fq)) eqn:E; [discriminate|]. cbn [fsize] in E. apply ok_inj in H. subst b.
  assert (BF : blen (fenc Fq v) = 8) by apply blen_fenc.
  rewrite blen_upd by (rewrite ?BF; lia). split; [|reflexivity].
  split; [rewrite blen_upd by (rewrite ?BF; lia); exact Hn|].
  intros i Hi Ho. rewrite getb_upd by (rewrite ?BF; lia). rewrite BF.
  replace ((dp <=? i) && (i <? dp + 8)) with false by (symmetry; lia). reflexivity.
Qed.

Lemma keeps_zeros n dp a k : n <= blen a -> keeps n dp a (a ++ zeros k).
Proof.
  intros H. pose proof (blen_nonneg (zeros k)). split; [rewrite blen_app; lia|].
  intros i Hi _. apply getb_app1. lia.
Qed.

Lemma keeps_slice n dp a pos src st len :
  0 <= n <= blen a -> n <= pos -> pos <= blen a -> keeps n dp a (write_slice a pos src st len).
Proof.
  intros Hn Hp Hb. unfold write_slice, py_slice_set, py_bound.
  replace (pos <? 0) with false by (symmetry; lia). rewrite (Z.min_l pos) by lia.
  set (t := py_slice src st (st + len) ++ _). assert (BF : blen (firstn (Z.to_nat pos) a) = pos).
  { rewrite blen_firstn. lia. }
  pose proof (blen_nonneg t).
  split; [rewrite blen_app, BF; lia|]. intros i Hi _. rewrite getb_app1 by (rewrite BF; lia).
  unfold getb. apply nth_firstn. lia.
Qed.

Lemma keeps_alloc_struct n dp a ds ps b r :
  0 <= n <= blen a -> 0 <= dp -> alloc_struct a dp ds ps = Ok (b, r) ->
  keeps n dp a b /\ r = blen a /\ blen a <= blen b.
Proof.
  intros Hn Hd H. unfold alloc_struct, allocate in H. apply bind_ok in H. destruct H as (c & W & H).
  apply ok_inj in H. assert (c = b) by congruence. assert (r = blen a) by congruence. subst c r.
  pose proof (blen_nonneg (zeros ((ds + ps) * 8))) as NZ.
  unfold write_int64, b_write in W. apply keeps_pack with (n := n) in W; [|rewrite blen_app; lia|exact Hd].
  destruct W as [W1 W2]. split; [|split; [reflexivity|rewrite W2, blen_app; lia]].
  apply (keeps_trans _ _ _ (a ++ zeros ((ds + ps) * 8))); [apply keeps_zeros; lia|exact W1].
Qed.

Lemma keeps_alloc_list n dp a tag k len b r :
  0 <= n <= blen a -> 0 <= dp -> alloc_list a dp tag k len = Ok (b, r) ->
  keeps n dp a b /\ r = blen a /\ blen a <= blen b.
Proof.
  intros Hn Hd H. unfold alloc_list, allocate in H. apply bind_ok in H. destruct H as (c & W & H).
  apply ok_inj in H. assert (c = b) by congruence. assert (r = blen a) by congruence. subst c r.
  set (z := round_up_to_word len) in *. pose proof (blen_nonneg (zeros z)) as NZ.
  unfold write_int64, b_write in W. apply keeps_pack with (n := n) in W; [|rewrite blen_app; lia|exact Hd].
  destruct W as [W1 W2]. split; [|split; [reflexivity|rewrite W2, blen_app; lia]].
  apply (keeps_trans _ _ _ (a ++ zeros z)); [apply keeps_zeros; lia|exact W1].
Qed.

Section rec.
  Variable rec : seg -> Z -> Z -> bytes -> Z -> res bytes.
  Hypothesis R : forall s p pos a dp b n,
    0 <= n <= blen a -> 0 <= dp -> rec s p pos a dp = Ok b -> keeps n dp a b.

  Lemma keeps_loop k : forall s pos a dp b n,
    0 <= n <= blen a -> n <= dp -> copy_ptrs_loop rec k s pos a dp = Ok b -> keeps n dp a b.
  Proof.
    induction k as [|k IH]; intros s pos a dp b n Hn Hd H; cbn [copy_ptrs_loop] in H.
    - apply ok_inj in H. subst. split; [lia|auto].
    - apply bind_ok in H. destruct H as (p & _ & H). apply bind_ok in H. destruct H as (c & W & H).
      assert (K : keeps n dp a c).
      { destruct (p =? 0); [apply ok_inj in W; subst; split; [lia|auto]|]. eapply R; [exact Hn|lia|exact W]. }
      apply (keeps_trans _ _ _ c); [exact K|]. apply (keeps_weaken n dp (dp + 8)); [|lia].
      apply (IH _ _ _ _ _ _) with (3 := H); [destruct K; lia|lia].
  Qed.

  Lemma keeps_many k s pos a dp b n :
    0 <= n <= blen a -> n <= dp -> copy_many_ptrs rec k s pos a dp = Ok b -> keeps n dp a b.
  Proof.
    intros Hn Hd H. unfold copy_many_ptrs in H. apply bind_ok in H. destruct H as (_ & _ & H).
    apply (keeps_loop _ _ _ _ _ _ _ Hn Hd H).
  Qed.

  Lemma keeps_items k : forall il ps s pos a dp b n,
    0 <= il -> 0 <= n <= blen a -> n <= dp -> copy_items_loop rec k il ps s pos a dp = Ok b -> keeps n dp a b.
  Proof.
    induction k as [|k IH]; intros il ps s pos a dp b n Hil Hn Hd H; cbn [copy_items_loop] in H.
    - apply ok_inj in H. subst. split; [lia|auto].
    - apply bind_ok in H. destruct H as (c & W & H).
      pose proof (keeps_many _ _ _ _ _ _ _ Hn Hd W) as K.
      apply (keeps_trans _ _ _ c); [exact K|]. apply (keeps_weaken n dp (dp + il)); [|lia].
      apply (IH _ _ _ _ _ _ _ _ Hil) with (3 := H); [destruct K; lia|lia].
  Qed.

  Lemma keeps_struct s p pos a dp b n :
    0 <= n <= blen a -> 0 <= dp -> copy_struct rec s p pos a dp = Ok b -> keeps n dp a b.
  Proof.
    intros Hn Hd H. unfold copy_struct in H. destruct (_ =? 0).
    - unfold write_int64, b_write in H. apply (keeps_pack n) in H; [tauto|lia|lia].
    - apply bind_ok in H. destruct H as ((c & r) & A & H). apply bind_ok in H. destruct H as (_ & _ & H).
      destruct (keeps_alloc_struct n _ _ _ _ _ _ Hn Hd A) as (K & -> & L).
      apply (keeps_trans _ _ _ c); [exact K|].
      set (w := write_slice c (blen a) (sbuf s) (deref p pos) (struct_data_size p * 8)) in *.
      assert (KW : keeps n dp c w) by (apply keeps_slice; lia).
      apply (keeps_trans _ _ _ w); [exact KW|].
      apply (keeps_weaken n dp (blen a + struct_data_size p * 8)).
      + apply (keeps_many _ _ _ _ _ _ _) with (3 := H); [destruct KW; lia|].
        rewrite data_size_spec. pose proof (p_dsize_range p). lia.
      + rewrite data_size_spec. pose proof (p_dsize_range p). lia.
  Qed.

  Lemma keeps_list_prim s p pos a dp b n :
    0 <= n <= blen a -> 0 <= dp -> copy_list_primitive s p pos a dp = Ok b -> keeps n dp a b.
  Proof.
    intros Hn Hd H. unfold copy_list_primitive in H.
    apply bind_ok in H. destruct H as ((c & r) & A & H). apply bind_ok in H. destruct H as (_ & _ & H).
    destruct (keeps_alloc_list n _ _ _ _ _ _ _ Hn Hd A) as (K & -> & L). apply ok_inj in H. subst b.
    apply (keeps_trans _ _ _ c); [exact K|]. apply keeps_slice; lia.
  Qed.

  Lemma keeps_list_ptr s p pos a dp b n :
    0 <= n <= blen a -> 0 <= dp -> copy_list_ptr rec s p pos a dp = Ok b -> keeps n dp a b.
  Proof.
    intros Hn Hd H. unfold copy_list_ptr in H.
    apply bind_ok in H. destruct H as ((c & r) & A & H). apply bind_ok in H. destruct H as (_ & _ & H).
    destruct (keeps_alloc_list n _ _ _ _ _ _ _ Hn Hd A) as (K & -> & L).
    apply (keeps_trans _ _ _ c); [exact K|]. apply (keeps_weaken n dp (blen a)); [|lia].
    apply (keeps_many _ _ _ _ _ _ _) with (3 := H); lia.
  Qed.

  Lemma keeps_list_comp s p pos a dp b n :
    0 <= n <= blen a -> 0 <= dp -> copy_list_composite rec s p pos a dp = Ok b -> keeps n dp a b.
  Proof.
    intros Hn Hd H. unfold copy_list_composite in H.
    apply bind_ok in H. destruct H as (_ & _ & H). apply bind_ok in H. destruct H as (tag & _ & H).
    apply bind_ok in H. destruct H as ((c & r) & A & H).
    destruct (keeps_alloc_list n _ _ _ _ _ _ _ Hn Hd A) as (K & -> & L).
    apply (keeps_trans _ _ _ c); [exact K|].
    rewrite data_size_spec, ptrs_size_spec in H.
    pose proof (p_dsize_range tag). pose proof (p_psize_range tag).
    match type of H with copy_items_loop _ _ _ _ _ _ ?w _ = _ => assert (KW : keeps n dp c w) by (apply keeps_slice; lia) end.
    eapply keeps_trans; [exact KW|].
    apply (keeps_weaken n dp (blen a + (8 + p_dsize tag * 8))); [|lia].
    apply (keeps_items _ _ _ _ _ _ _ _ _) with (4 := H); [lia|destruct KW; lia|lia].
  Qed.
End rec.

Lemma copy_keeps fuel : forall s p pos a dp b n,
  0 <= n <= blen a -> 0 <= dp -> copy_pointer fuel s p pos a dp = Ok b -> keeps n dp a b.
Proof.
  induction fuel as [|fuel IH]; intros s p pos a dp b n Hn Hd H; [discriminate|]. cbn [copy_pointer] in H.
  destruct (kind p =? STRUCT); [apply (keeps_struct _ IH _ _ _ _ _ _ _ Hn Hd H)|].
  destruct (kind p =? LIST).
  - destruct (_ =? _); [apply (keeps_list_comp _ IH _ _ _ _ _ _ _ Hn Hd H)|].
    destruct (_ =? _); [apply (keeps_list_ptr _ IH _ _ _ _ _ _ _ Hn Hd H)|].
    eapply keeps_list_prim; eassumption.
  - destruct (kind p =? FAR).
    + apply bind_ok in H. destruct H as ((q & pp) & _ & H). apply (IH _ _ _ _ _ _ _ Hn Hd H).
    + apply ok_inj in H. subst. split; [lia|auto].
Qed.

Lemma copy_pointer_frame fuel s p pos dst dp dst' :
  0 <= dp -> copy_pointer fuel s p pos dst dp = Ok dst' ->
  blen dst <= blen dst' /\
  forall i, 0 <= i < blen dst -> i < dp \/ dp + 8 <= i -> getb dst' i = getb dst i.
Proof.
  intros Hd H. pose proof (blen_nonneg dst). apply (copy_keeps fuel s p pos dst dp dst' (blen dst)); [lia|exact Hd|exact H].
Qed.
