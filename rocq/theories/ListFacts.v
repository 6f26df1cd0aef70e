(** C35: a capnpy list behaves as the Python list of its items. *)
From Verif Require Import Base Spec BaseFacts Ptr PtrFacts Segment SegmentFacts Builder Copy Endof Enc EncFacts
  Struct Message List Query StructFacts.
From Coq Require Import ZifyBool ZifyNat.
Ltac Zify.zify_post_hook ::= Z.div_mod_to_equations.

(** [xs] is the list of the items of [l], read one by one at the positions
    0 .. len(l)-1. *)
Definition items_are (l : lobj) (xs : list item) : Prop :=
  l_count l = blen xs /\ forall i x, nth_error xs i = Some x -> read_item l (Z.of_nat i) = Ok x.

Lemma items_at l xs i : items_are l xs -> 0 <= i < blen xs -> read_item l i = Ok (nth (Z.to_nat i) xs INone).
Proof.
  intros [_ H] Hi. unfold blen in Hi. rewrite <- (Z2Nat.id i) at 1 by lia. apply H.
  apply nth_error_nth'. lia.
Qed.

Lemma getitem_list l xs i : items_are l xs ->
  l_getitem l i = match v_index (blen xs) i with
                  | Some j => Ok (nth (Z.to_nat j) xs INone)
                  | None => Err IndexError
                  end.
Proof.
  intros H. unfold l_getitem, v_index. rewrite (proj1 H). pose proof (blen_nonneg xs).
  destruct ((0 <=? i) && (i <? blen xs)) eqn:E1.
  - replace (i <? 0) with false by (symmetry; lia). rewrite E1. apply items_at; [exact H|lia].
  - destruct ((- blen xs <=? i) && (i <? 0)) eqn:E2.
    + replace (i <? 0) with true by (symmetry; lia).
      replace ((0 <=? i + blen xs) && (i + blen xs <? blen xs)) with true by (symmetry; lia).
      rewrite (items_at l xs _ H) by lia. do 3 f_equal. lia.
    + destruct (i <? 0) eqn:E3.
      * replace ((0 <=? i + blen xs) && (i + blen xs <? blen xs)) with false by (symmetry; lia). reflexivity.
      * rewrite E1. reflexivity.
Qed.

Lemma mapM_ok {A B} (f : A -> res B) (g : A -> B) L :
  Forall (fun x => f x = Ok (g x)) L -> mapM f L = Ok (map g L).
Proof.
  intros F. induction F as [|x L Hx F IH]; [reflexivity|]. cbn [mapM map]. rewrite Hx, IH. reflexivity.
Qed.

Lemma range_in a b st k : st <> 0 -> 0 <= k < range_len a b st ->
  (0 < st -> a <= a + k * st < b) /\ (st < 0 -> b < a + k * st <= a).
Proof.
  intros Hs. unfold range_len. destruct (Z.ltb_spec 0 st).
  - destruct (Z.ltb_spec a b); [|lia]. intros Hk. split; [|lia]. intros _.
    assert (k <= (b - a - 1) / st) by lia.
    assert (st * k <= st * ((b - a - 1) / st)) by (apply Z.mul_le_mono_nonneg_l; lia).
    pose proof (Z.mul_div_le (b - a - 1) st ltac:(lia)). nia.
  - destruct (Z.ltb_spec b a); [|lia]. intros Hk. split; [lia|]. intros _.
    assert (k <= (a - b - 1) / - st) by lia.
    assert (- st * k <= - st * ((a - b - 1) / - st)) by (apply Z.mul_le_mono_nonneg_l; lia).
    pose proof (Z.mul_div_le (a - b - 1) (- st) ltac:(lia)). nia.
Qed.

Lemma slice_bounds start stop step n a b c : 0 <= n ->
  slice_indices start stop step n = Ok (a, b, c) ->
  c <> 0 /\ c = match step with None => 1 | Some x => x end /\
  (0 < c -> 0 <= a <= n /\ 0 <= b <= n) /\ (c < 0 -> -1 <= a < n /\ -1 <= b < n).
Proof.
  intros Hn. unfold slice_indices. set (st := match step with None => 1 | Some x => x end).
  destruct (Z.eqb_spec st 0); [discriminate|]. intros H. apply ok_inj in H.
  assert (EA := f_equal (fun x => fst (fst x)) H). assert (EB := f_equal (fun x => snd (fst x)) H).
  assert (EC := f_equal snd H). cbn [fst snd] in *. clear H. subst c.
  split; [assumption|]. split; [reflexivity|]. subst a b.
  destruct start as [x|], stop as [y|]; destruct (Z.ltb_spec st 0); split; intros; try lia;
    repeat match goal with |- context [if ?b then _ else _] => destruct b eqn:? end; lia.
Qed.

Lemma getslice_list l xs start stop step : items_are l xs ->
  match slice_indices start stop step (blen xs) with
  | Err e => l_getslice l start stop step = Err e
  | Ok (a, b, c) =>
      l_getslice l start stop step = Ok (map (fun i => nth (Z.to_nat i) xs INone) (py_range a b c)) /\
      Forall (fun i => 0 <= i < blen xs) (py_range a b c)
  end.
Proof.
  intros H. unfold l_getslice. rewrite (proj1 H). pose proof (blen_nonneg xs) as NN.
  destruct (slice_indices start stop step (blen xs)) as [[[a b] c]|e] eqn:S; [|reflexivity]. cbn [bind].
  destruct (slice_bounds _ _ _ _ _ _ _ NN S) as (C0 & _ & CP & CN).
  assert (R : Forall (fun i => 0 <= i < blen xs) (py_range a b c)).
  { rewrite Forall_forall. intros i Hi. unfold py_range in Hi. apply in_map_iff in Hi.
    destruct Hi as (k & <- & Hk). apply in_seq in Hk.
    destruct (range_in a b c (Z.of_nat k) C0 ltac:(lia)) as [R1 R2]. destruct (Z.lt_ge_cases 0 c); lia. }
  split; [|exact R]. apply mapM_ok. rewrite Forall_forall in *. intros i Hi. apply items_at; [exact H|apply R, Hi].
Qed.

Lemma map_nth_range (xs : list item) a m : 0 <= a -> a + Z.of_nat m <= blen xs ->
  map (fun i => nth (Z.to_nat i) xs INone) (map (fun k => a + Z.of_nat k * 1) (seq 0 m)) = sub xs a (Z.of_nat m).
Proof.
  intros Ha Hm. rewrite map_map. unfold sub. rewrite Nat2Z.id.
  apply nth_ext with (d := INone) (d' := INone).
  - rewrite map_length, seq_length, firstn_length, skipn_length. unfold blen in Hm. lia.
  - intros k Hk. rewrite map_length, seq_length in Hk.
    rewrite (nth_indep _ _ (nth (Z.to_nat (a + Z.of_nat 0 * 1)) xs INone)) by (rewrite map_length, seq_length; exact Hk).
    rewrite (map_nth (fun k => nth (Z.to_nat (a + Z.of_nat k * 1)) xs INone) (seq 0 m) 0%nat k).
    rewrite seq_nth by exact Hk. rewrite nth_firstn by lia. rewrite nth_skipn. f_equal. lia.
Qed.

(** l[start:stop] *)
Lemma getslice_plain l xs start stop : items_are l xs ->
  l_getslice l start stop None =
  Ok (py_slice xs (match start with Some a => a | None => 0 end) (match stop with Some b => b | None => blen xs end)).
Proof.
  intros H. pose proof (getslice_list l xs start stop None H) as G. pose proof (blen_nonneg xs) as NN.
  unfold slice_indices in G. change (1 =? 0) with false in G. change (1 <? 0) with false in G. cbn match in G.
  destruct G as [G _]. rewrite G. f_equal. unfold py_slice, py_range.
  set (a := match start with None => 0 | Some x => _ end).
  set (b := match stop with None => blen xs | Some x => _ end).
  assert (EA : py_bound (blen xs) (match start with Some x => x | None => 0 end) = a).
  { subst a. unfold py_bound. destruct start as [x|]; [destruct (x <? 0) eqn:?; lia|cbn; lia]. }
  assert (EB : py_bound (blen xs) (match stop with Some x => x | None => blen xs end) = b).
  { subst b. unfold py_bound. destruct stop as [x|]; [destruct (x <? 0) eqn:?; lia|destruct (_ <? 0) eqn:?; lia]. }
  rewrite EA, EB.
  assert (BA : 0 <= a <= blen xs) by (rewrite <- EA; unfold py_bound; destruct (_ <? 0) eqn:?; lia).
  assert (BB : 0 <= b <= blen xs) by (rewrite <- EB; unfold py_bound; destruct (_ <? 0) eqn:?; lia).
  clearbody a b.
  unfold range_len. change (0 <? 1) with true. cbn match. destruct (Z.ltb_spec a b).
  - rewrite map_nth_range by (rewrite ?Z.div_1_r; lia). f_equal. rewrite Z.div_1_r. lia.
  - cbn [Z.to_nat seq map]. unfold sub. replace (Z.to_nat (b - a)) with 0%nat by lia. reflexivity.
Qed.

(** l[::-1] *)
Lemma getslice_rev l xs : items_are l xs -> l_getslice l None None (Some (-1)) = Ok (rev xs).
Proof.
  intros H. pose proof (getslice_list l xs None None (Some (-1)) H) as G. pose proof (blen_nonneg xs) as NN.
  unfold slice_indices in G. change (-1 =? 0) with false in G. change (-1 <? 0) with true in G. cbn match in G.
  destruct G as [G _]. rewrite G. f_equal. unfold py_range, range_len.
  change (0 <? -1) with false. cbn match. change (- -1) with 1.
  assert (N : Z.to_nat (if -1 <? blen xs - 1 then (blen xs - 1 - -1 - 1) / 1 + 1 else 0) = length xs).
  { rewrite Z.div_1_r. unfold blen in *. destruct (_ <? _) eqn:?; lia. }
  rewrite N, map_map. apply nth_ext with (d := INone) (d' := INone).
  - rewrite map_length, seq_length, rev_length. reflexivity.
  - intros k Hk. rewrite map_length, seq_length in Hk.
    set (g := fun x : nat => nth (Z.to_nat (blen xs - 1 + Z.of_nat x * -1)) xs INone).
    rewrite (nth_indep _ _ (g 0%nat)) by (rewrite map_length, seq_length; exact Hk).
    rewrite (map_nth g (seq 0 (length xs)) 0%nat k). rewrite seq_nth by exact Hk.
    rewrite rev_nth by exact Hk. subst g. cbn beta. f_equal. unfold blen. lia.
Qed.

Lemma iter_from l xs : items_are l xs -> forall m k, (m + k = length xs)%nat ->
  l_iter (S m) l (Z.of_nat k) = Ok (skipn k xs).
Proof.
  intros H. induction m as [|m IH]; intros k Hk.
  - cbn [l_iter]. rewrite (getitem_list l xs _ H). unfold v_index, blen.
    replace ((0 <=? Z.of_nat k) && (Z.of_nat k <? Z.of_nat (length xs))) with false by (symmetry; lia).
    replace ((- Z.of_nat (length xs) <=? Z.of_nat k) && (Z.of_nat k <? 0)) with false by (symmetry; lia).
    rewrite skipn_all2 by lia. reflexivity.
  - cbn [l_iter]. rewrite (getitem_list l xs _ H). unfold v_index, blen.
    replace ((0 <=? Z.of_nat k) && (Z.of_nat k <? Z.of_nat (length xs))) with true by (symmetry; lia).
    replace (Z.of_nat k + 1) with (Z.of_nat (S k)) by lia.
    change (match l_iter (S m) l (Z.of_nat (S k)) with Ok r => Ok (nth (Z.to_nat (Z.of_nat k)) xs INone :: r) | Err e => Err e end
            = Ok (skipn k xs)).
    rewrite IH by lia. rewrite Nat2Z.id.
    destruct (nth_error xs k) as [x|] eqn:N; [|apply nth_error_None in N; lia].
    rewrite (nth_error_nth _ _ INone N). f_equal.
    clear -N. revert xs N. induction k as [|k IHk]; intros [|y xs] N; try discriminate.
    + cbn in *. congruence.
    + cbn [nth_error] in N. cbn [skipn]. apply IHk. exact N.
Qed.

Lemma iter_list l xs fuel : items_are l xs -> (length xs < fuel)%nat -> l_iter fuel l 0 = Ok xs.
Proof.
  intros H Hf.
  assert (M : forall f1 f2 i r, (f1 <= f2)%nat -> l_iter f1 l i = Ok r -> l_iter f2 l i = Ok r).
  { induction f1 as [|f1 IH]; intros f2 i r Hle E; [discriminate|]. destruct f2 as [|f2]; [lia|].
    cbn [l_iter] in *. destruct (l_getitem l i) as [x|[]]; try exact E.
    apply bind_ok in E. destruct E as (r' & E1 & E2). rewrite (IH f2 _ r') by (try lia; exact E1). exact E2. }
  apply (M (S (length xs))); [lia|]. apply (iter_from l xs H (length xs) 0). lia.
Qed.

(** On a well-formed list every item can be read; [ys] are the items of the
    value. *)
Lemma items_value l v ys : lobj_den l v -> blen ys = vcount v ->
  (forall i y, nth_error ys i = Some y -> v_item (l_it l) v (Z.of_nat i) = Some y /\ match y with VIBytes (Err _) => False | _ => True end) ->
  exists xs, items_are l xs /\ Forall2 (item_den (l_seg l) (l_it l)) xs ys.
Proof.
  intros L C Y.
  assert (R : forall i y, nth_error ys i = Some y -> exists x, read_item l (Z.of_nat i) = Ok x /\ item_den (l_seg l) (l_it l) x y).
  { intros i y N. destruct (Y i y N) as [V G].
    assert (i < length ys)%nat by (apply nth_error_Some; congruence).
    pose proof (read_item_spec l v (Z.of_nat i) y L ltac:(unfold blen in C; lia) V) as RI.
    destruct y as [| | | | |[b|e]|]; try exact RI. contradiction. }
  assert (B : exists xs, length xs = length ys /\ (forall i x, nth_error xs i = Some x -> read_item l (Z.of_nat i) = Ok x) /\
     Forall2 (item_den (l_seg l) (l_it l)) xs ys).
  { clear C Y. assert (Gen : forall zs k, (forall i y, nth_error zs i = Some y ->
        exists x, read_item l (Z.of_nat (k + i)) = Ok x /\ item_den (l_seg l) (l_it l) x y) ->
      exists xs, length xs = length zs /\ (forall i x, nth_error xs i = Some x -> read_item l (Z.of_nat (k + i)) = Ok x) /\
        Forall2 (item_den (l_seg l) (l_it l)) xs zs).
    { induction zs as [|z zs IH]; intros k Hz.
      - exists []. split; [reflexivity|]. split; [intros [|i] x N; discriminate|constructor].
      - destruct (Hz 0%nat z eq_refl) as (x & X1 & X2).
        destruct (IH (S k)) as (xs & L1 & L2 & L3).
        { intros i y N. destruct (Hz (S i) y N) as (x' & Q1 & Q2). exists x'.
          replace (S k + i)%nat with (k + S i)%nat by lia. auto. }
        exists (x :: xs). split; [cbn; lia|]. split; [|constructor; assumption].
        intros [|i] x' N; cbn [nth_error] in N.
        + injection N as <-. exact X1.
        + replace (k + S i)%nat with (S k + i)%nat by lia. apply L2. exact N. }
    apply (Gen ys 0%nat). exact R. }
  destruct B as (xs & L1 & L2 & L3). exists xs. split; [|exact L3]. split; [|exact L2].
  destruct (lobj_den_attrs _ _ L) as [CC _]. unfold blen in *. lia.
Qed.
