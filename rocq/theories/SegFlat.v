(** The flat buffer with its table of segment starts represents the
    segmented address space faithfully. *)
From Verif Require Import Base Spec BaseFacts PtrFacts EncFacts SegSpec.
From Coq Require Import ZifyBool.
Ltac Zify.zify_post_hook ::= Z.div_mod_to_equations.

Scheme sden_ind2 := Induction for sden Sort Prop
  with sden_ptrs_ind2 := Induction for sden_ptrs Sort Prop
  with sden_items_ind2 := Induction for sden_items Sort Prop.
Combined Scheme sden_mut from sden_ind2, sden_ptrs_ind2, sden_items_ind2.

Definition gpos (segs : list bytes) (k i : Z) : Z := prefix_sum segs (Z.to_nat k) + i.

Lemma concat_split (segs : list bytes) k b :
  nth_error segs k = Some b ->
  exists pre post, concat segs = pre ++ b ++ post /\ blen pre = prefix_sum segs k.
Proof.
  revert segs. induction k as [|k IH]; intros [|x segs] H; cbn in H; try discriminate.
  - injection H as ->. exists [], (concat segs). split; reflexivity.
  - destruct (IH segs H) as (pre & post & E & L). exists (x ++ pre), post.
    split; [cbn [concat]; rewrite E, <- app_assoc; reflexivity|].
    unfold prefix_sum in *. cbn [firstn concat]. rewrite !blen_app. lia.
Qed.

Lemma sub_mid {A} (pre b post : list A) i n :
  0 <= i -> 0 <= n -> i + n <= blen b ->
  sub (pre ++ b ++ post) (blen pre + i) n = sub b i n.
Proof.
  intros Hi Hn Hb. unfold sub. replace (Z.to_nat (blen pre + i)) with (length pre + Z.to_nat i)%nat by (unfold blen; lia).
  rewrite skipn_app. rewrite skipn_all2 by lia. replace (length pre + Z.to_nat i - length pre)%nat with (Z.to_nat i) by lia.
  cbn [app]. rewrite skipn_app. unfold blen in *.
  replace (Z.to_nat i - length b)%nat with O by lia. cbn [skipn].
  rewrite firstn_app. rewrite skipn_length. replace (Z.to_nat n - (length b - Z.to_nat i))%nat with O by lia.
  cbn [firstn]. apply app_nil_r.
Qed.

Lemma seg_bytes_flat segs k i n b :
  seg_bytes segs k i n = Some b -> bytes_at (flat segs) (gpos segs k i) n = Some b.
Proof.
  unfold seg_bytes. destruct (k <? 0); [discriminate|].
  destruct (nth_error segs (Z.to_nat k)) as [s|] eqn:N; [|discriminate].
  destruct (concat_split _ _ _ N) as (pre & post & E & L).
  unfold bytes_at, slen, gpos. cbn [sbuf flat]. rewrite E, <- L.
  destruct ((0 <=? i) && (0 <=? n) && (i + n <=? blen s)) eqn:C; [|discriminate].
  intros H. injection H as <-. rewrite !blen_app.
  pose proof (blen_nonneg pre). pose proof (blen_nonneg post).
  replace ((0 <=? blen pre + i) && (0 <=? n) && (blen pre + i + n <=? blen pre + (blen s + blen post)))
    with true by (symmetry; lia).
  rewrite sub_mid by lia. reflexivity.
Qed.

Lemma seg_word_flat segs k i p :
  seg_word segs k i = Some p -> word_at (flat segs) (gpos segs k i) = Some p.
Proof.
  unfold seg_word. destruct (k <? 0); [discriminate|].
  destruct (nth_error segs (Z.to_nat k)) as [s|] eqn:N; [|discriminate].
  destruct (concat_split _ _ _ N) as (pre & post & E & L).
  unfold word_at, slen, gpos. cbn [sbuf flat]. rewrite E, <- L.
  destruct ((0 <=? i) && (i + 8 <=? blen s)) eqn:C; [|discriminate].
  intros H. injection H as <-. rewrite !blen_app.
  pose proof (blen_nonneg pre). pose proof (blen_nonneg post).
  replace ((0 <=? blen pre + i) && (blen pre + i + 8 <=? blen pre + (blen s + blen post)))
    with true by (symmetry; lia).
  rewrite sub_mid by lia. reflexivity.
Qed.

Lemma seg_word_idx segs k i p : seg_word segs k i = Some p -> 0 <= k < blen segs.
Proof.
  unfold seg_word. destruct (Z.ltb_spec k 0); [discriminate|].
  destruct (nth_error segs (Z.to_nat k)) as [s|] eqn:N; [|discriminate].
  intros _. assert (H1 : nth_error segs (Z.to_nat k) <> None) by congruence.
  apply nth_error_Some in H1. unfold blen. lia.
Qed.

Lemma seg_start_flat segs k : 0 <= k < blen segs -> seg_start (flat segs) k = Some (prefix_sum segs (Z.to_nat k)).
Proof.
  intros H. unfold seg_start, flat. cbn [soffs]. replace (0 <=? k) with true by (symmetry; lia).
  unfold blen in H. rewrite nth_error_map.
  assert (E : nth_error (seq 0 (length segs)) (Z.to_nat k) = Some (Z.to_nat k)).
  { rewrite nth_error_nth' with (d := O) by (rewrite seq_length; lia). rewrite seq_nth by lia. reflexivity. }
  rewrite E. reflexivity.
Qed.

Lemma sfar_flat segs p k i q : sfar segs p k i q -> far_to (flat segs) p (gpos segs k i) q.
Proof.
  intros H. destruct H as [q P W|q tag P W W2 K P2 O S].
  - pose proof (seg_start_flat _ _ (seg_word_idx _ _ _ _ W)) as S.
    unfold gpos. apply far_one; [exact P|exact S|]. apply (seg_word_flat _ _ _ _ W).
  - pose proof (seg_start_flat _ _ (seg_word_idx _ _ _ _ W)) as S1.
    pose proof (seg_start_flat _ _ S) as S2.
    unfold gpos. replace (prefix_sum segs (Z.to_nat (p_farseg q)) + (8 * p_faroff q - 8))
      with (prefix_sum segs (Z.to_nat (p_farseg q)) + 8 * p_faroff q - 8) by lia.
    eapply far_two; try eassumption.
    + apply (seg_word_flat _ _ _ _ W).
    + apply seg_word_flat in W2. unfold gpos in W2. rewrite <- Z.add_assoc. exact W2.
Qed.

Lemma gpos_target segs k p i : gpos segs k (p_target p i) = p_target p (gpos segs k i).
Proof. unfold gpos, p_target. lia. Qed.
Lemma gpos_add segs k i x : gpos segs k (i + x) = gpos segs k i + x.
Proof. unfold gpos. lia. Qed.

Lemma sden_flat segs :
  (forall k p i v, sden segs k p i v -> den (flat segs) p (gpos segs k i) v) /\
  (forall k i n vs, sden_ptrs segs k i n vs ->
     den_ptrs (flat segs) (gpos segs k i) n vs /\ 0 <= gpos segs k i /\
     gpos segs k i + 8 * Z.of_nat n <= slen (flat segs)) /\
  (forall k i ds ps n items, sden_items segs k i ds ps n items ->
     den_items (flat segs) (gpos segs k i) ds ps n items).
Proof.
  apply (sden_mut segs
    (fun k p i v _ => den (flat segs) p (gpos segs k i) v)
    (fun k i n vs _ => den_ptrs (flat segs) (gpos segs k i) n vs /\ 0 <= gpos segs k i /\
       gpos segs k i + 8 * Z.of_nat n <= slen (flat segs))
    (fun k i ds ps n items _ => den_items (flat segs) (gpos segs k i) ds ps n items)).
  - intros. constructor.
  - intros k p i data vs N K B _ [P _]. constructor; [exact N|exact K| |].
    + rewrite <- gpos_target. apply seg_bytes_flat. exact B.
    + rewrite <- gpos_target, <- gpos_add. exact P.
  - intros k p i body K T B. constructor; [exact K|exact T|].
    rewrite <- gpos_target. apply seg_bytes_flat. exact B.
  - intros k p i vs K T _ (P & P1 & P2). rewrite gpos_target in *.
    pose proof (p_lcount_range p). constructor; try assumption. lia.
  - intros k p i tag items slack K T W K2 O _ I B. apply den_clist; try assumption.
    + rewrite <- gpos_target. apply seg_word_flat. exact W.
    + rewrite <- gpos_target, <- gpos_add. exact I.
    + rewrite <- gpos_target, <- !gpos_add. apply seg_bytes_flat. exact B.
  - intros k p i k' i' p' v K F K' N' _ D. eapply den_far; try eassumption.
    apply sfar_flat. exact F.
  - intros k i B. apply seg_bytes_flat in B. unfold bytes_at in B.
    destruct ((0 <=? gpos segs k i) && (0 <=? 0) && (gpos segs k i + 0 <=? slen (flat segs))) eqn:C; [|discriminate].
    split; [constructor; lia|]. lia.
  - intros k i n p v vs W _ D _ (P & P1 & P2). rewrite gpos_add in *.
    apply seg_word_flat in W. destruct (word_at_some _ _ _ W) as (W1 & W2 & _).
    split; [eapply dp_cons; eassumption|]. lia.
  - intros. constructor.
  - intros k i ds ps n data vs items B _ [P _] _ I. constructor.
    + apply seg_bytes_flat. exact B.
    + rewrite <- gpos_add. exact P.
    + rewrite <- gpos_add. exact I.
Qed.
