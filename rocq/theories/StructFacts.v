(** Reads as functions of the value. *)
From Verif Require Import Base Spec BaseFacts Ptr PtrFacts Segment SegmentFacts Struct List Query
  Enc EncFacts.
From Coq Require Import ZifyBool.
Ltac Zify.zify_post_hook ::= Z.div_mod_to_equations.

Lemma den_ptrs_nth s : forall n pos vs k, den_ptrs s pos n vs -> (k < n)%nat ->
  exists p, word_at s (pos + 8 * Z.of_nat k) = Some p /\
            den s p (pos + 8 * Z.of_nat k) (nth k vs VNull).
Proof.
  induction n as [|n IH]; intros pos vs k H Hk; [lia|].
  inversion H as [|pos0 n0 p v vs0 W D R]; subst.
  destruct k as [|k].
  - exists p. replace (pos + 8 * Z.of_nat 0) with pos by lia. auto.
  - destruct (IH _ _ k R) as (q & W' & D'); [lia|]. exists q.
    replace (pos + 8 * Z.of_nat (S k)) with (pos + 8 + 8 * Z.of_nat k) by lia. auto.
Qed.

Lemma den_far_inv s p pos v : den s p pos v -> p_kind p = 2 ->
  exists pos' p', far_to s p pos' p' /\ p_kind p' <> 2 /\ p' <> 0 /\ den s p' pos' v.
Proof.
  intros D K. inversion D; subst; try congruence.
  - unfold p_kind in K. cbn in K. discriminate.
  - exists pos', p'. auto.
Qed.

Lemma o_read_fast_ptr_spec o d vs k :
  obj_den o d vs -> 0 <= k ->
  exists p, o_read_fast_ptr o (8 * k) = Ok p /\ den (o_seg o) p (o_ptrs o + 8 * k) (v_ptr vs k) /\
    (p <> 0 -> word_at (o_seg o) (o_ptrs o + 8 * k) = Some p).
Proof.
  intros (E & Hd & Hp & B & D) Hk. unfold o_read_fast_ptr, v_ptr.
  pose proof (den_ptrs_len _ _ _ _ D) as L.
  destruct (Z.leb_spec (o_ps o * 8) (8 * k)).
  - exists 0. split; [reflexivity|]. rewrite nth_overflow by lia. split; [constructor|congruence].
  - destruct (den_ptrs_nth _ _ _ _ (Z.to_nat k) D) as (p & W & V); [lia|].
    rewrite <- E in *. replace (o_ptrs o + 8 * Z.of_nat (Z.to_nat k)) with (o_ptrs o + 8 * k) in * by lia.
    exists p. split; [apply read_ptr_word; exact W|]. auto.
Qed.

Lemma o_resolve_spec o d vs k :
  obj_den o d vs -> 0 <= k ->
  exists pos p, o_resolve o (8 * k) = Ok (pos, p) /\ p_kind p <> 2 /\
    den (o_seg o) p pos (v_ptr vs k).
Proof.
  intros O Hk. destruct (o_read_fast_ptr_spec o d vs k O Hk) as (p & R & D & W).
  unfold o_resolve. rewrite R. cbn [bind]. rewrite kind_spec. unfold FAR.
  destruct (Z.eqb_spec (p_kind p) 2) as [K|K].
  - destruct (den_far_inv _ _ _ _ D K) as (pos' & p' & F & K' & N' & D').
    exists pos', p'. split; [|auto].
    assert (P0 : p <> 0) by (intros ->; cbn in K; discriminate).
    unfold o_read_far_ptr.
    destruct (Z.leb_spec (o_ps o * 8) (8 * k)).
    + unfold o_read_fast_ptr in R. destruct (Z.leb_spec (o_ps o * 8) (8 * k)); [|lia].
      apply ok_inj in R. congruence.
    + apply (read_far_ptr_spec _ _ _ _ _ (W P0)). exact F.
  - exists (8 * k + o_ptrs o), p. split; [reflexivity|]. split; [exact K|].
    replace (8 * k + o_ptrs o) with (o_ptrs o + 8 * k) by lia. exact D.
Qed.

Lemma aligned_fits n off f : n mod 8 = 0 -> off mod fsize f = 0 -> 0 <= off < n -> off + fsize f <= n.
Proof. intros A B C. destruct f; cbn [fsize] in *; lia. Qed.

Lemma o_read_primitive_spec o d vs off f :
  obj_den o d vs -> 0 <= off -> off mod fsize f = 0 ->
  o_read_primitive o off f = Ok (v_prim d off f).
Proof.
  intros (E & Hd & Hp & B & D) Ho Ha. unfold o_read_primitive, v_prim.
  destruct (bytes_at_some _ _ _ _ B) as (B1 & B2 & B3 & -> & B5). rewrite B5.
  replace (o_ds o * 8) with (8 * o_ds o) by lia.
  destruct (Z.leb_spec (8 * o_ds o) off); [reflexivity|].
  pose proof (aligned_fits (8 * o_ds o) off f ltac:(lia) Ha ltac:(lia)).
  pose proof (fsize_pos f).
  rewrite read_primitive_in by lia. rewrite sub_sub; try lia; [reflexivity|].
  unfold slen in *; lia.
Qed.

Lemma o_read_bit_spec o d vs off mask :
  obj_den o d vs -> 0 <= off ->
  o_read_bit o off mask = Ok (negb (Z.land (v_prim d off FB) mask =? 0)).
Proof.
  intros O Ho. unfold o_read_bit.
  rewrite (o_read_primitive_spec o d vs off FB O Ho) by (cbn [fsize]; lia). reflexivity.
Qed.

Lemma den_struct_obj s p pos d vs :
  den s p pos (VStruct d vs) -> p_kind p <> 2 ->
  exists o, init_from_pointer s pos p = Ok o /\ obj_den o d vs /\ o_seg o = s /\
            o_off o = p_target p pos /\ p_kind p = 0 /\ p <> 0 /\
            o_ds o = p_dsize p /\ o_ps o = p_psize p.
Proof.
  intros D K. inversion D as [|? ? ? ? N K0 B P| | | |]; subst; [|congruence].
  unfold init_from_pointer. rewrite kind_spec, K0. cbn [py_assert STRUCT Z.eqb bind].
  rewrite deref_spec, data_size_spec, ptrs_size_spec.
  unfold init_from_buffer. cbn [o_off o_ptrs o_ds o_ps].
  destruct (bytes_at_some _ _ _ _ B) as (B1 & B2 & B3 & B4 & B5).
  destruct (den_ptrs_bounds _ _ _ _ P) as [P1 P2].
  pose proof (p_dsize_range p). pose proof (p_psize_range p).
  unfold slen in *.
  replace (p_target p pos + p_dsize p * 8 <=? blen (sbuf s)) with true by (symmetry; lia).
  replace (p_target p pos + p_dsize p * 8 + p_psize p * 8 <=? blen (sbuf s)) with true by (symmetry; lia).
  cbn [py_assert bind]. eexists. split; [reflexivity|].
  cbn [o_seg o_off o_ptrs o_ds o_ps].
  split; [|repeat split; first [assumption|reflexivity]].
  unfold obj_den. cbn [o_seg o_off o_ptrs o_ds o_ps].
  repeat (split; [first [lia|split;lia|assumption|reflexivity]|]). assumption.
Qed.

Lemma den_kind0 s p pos v : den s p pos v -> p_kind p <> 2 ->
  match v with
  | VNull => p = 0
  | VStruct _ _ => p <> 0 /\ p_kind p = 0
  | _ => p <> 0 /\ p_kind p = 1
  end.
Proof.
  intros D K. inversion D; subst; auto; try congruence;
  split; auto; intros ->; cbn in *; discriminate.
Qed.

Lemma o_read_struct_spec o d vs k :
  obj_den o d vs -> 0 <= k ->
  match v_ptr vs k with
  | VNull => o_read_struct o (8 * k) = Ok None
  | VStruct d' vs' => exists o', o_read_struct o (8 * k) = Ok (Some o') /\ obj_den o' d' vs' /\ o_seg o' = o_seg o
  | _ => o_read_struct o (8 * k) = Err AssertionError
  end.
Proof.
  intros O Hk. destruct (o_resolve_spec o d vs k O Hk) as (pos & p & R & K & D).
  unfold o_read_struct. rewrite R. cbn [bind].
  pose proof (den_kind0 _ _ _ _ D K) as DK. rewrite kind_spec. unfold STRUCT.
  destruct (v_ptr vs k) as [|d' vs'|tg c b|vs'|ds ps items sl] eqn:V.
  - subst p. reflexivity.
  - destruct DK as [N K0]. apply Z.eqb_neq in N. rewrite N, K0. cbn [Z.eqb py_assert bind].
    destruct (den_struct_obj _ _ _ _ _ D K) as (o' & I & OD & S1 & _). rewrite I. cbn [bind].
    exists o'. auto.
  - destruct DK as [N K0]. apply Z.eqb_neq in N. rewrite N, K0. reflexivity.
  - destruct DK as [N K0]. apply Z.eqb_neq in N. rewrite N, K0. reflexivity.
  - destruct DK as [N K0]. apply Z.eqb_neq in N. rewrite N, K0. reflexivity.
Qed.

Lemma read_str_spec s p pos v dflt add r :
  den s p pos v -> p_kind p <> 2 -> vbytes v dflt add = Some r ->
  read_str s p pos dflt add = r.
Proof.
  intros D K V. unfold read_str. rewrite kind_spec, size_tag_spec, deref_spec, item_count_spec.
  unfold LIST, LIST_SIZE_8.
  pose proof (den_kind0 _ _ _ _ D K) as DK.
  destruct v as [|d vs|t c b|vs|ds ps items sl]; cbn [vbytes] in V.
  - subst p. cbn [Z.eqb]. injection V as <-. reflexivity.
  - destruct DK as [N K0]. apply Z.eqb_neq in N. rewrite N, K0. cbn [Z.eqb py_assert bind]. injection V as <-. reflexivity.
  - destruct DK as [N K0]. pose proof N as N'. apply Z.eqb_neq in N'. rewrite N', K0.
    cbn [Z.eqb Pos.eqb py_assert bind].
    inversion D as [| |? ? ? K1 T1 B1| | |]; subst; [|congruence].
    destruct (Z.eqb_spec (p_ltag p) 2) as [T|T].
    + rewrite T in *. cbn [py_assert bind].
      destruct ((0 <=? p_lcount p + add) && (add <=? 0)) eqn:C; [|discriminate].
      destruct (bytes_at_some _ _ _ _ B1) as (Q1 & Q2 & Q3 & Q4 & Q5).
      change (list_bytes 2 (p_lcount p)) with (p_lcount p) in *.
      unfold slen in *.
      rewrite py_slice_in by lia. rewrite Q4 in V. rewrite sub_sub in V by lia.
      injection V as <-.
      replace (p_target p pos + p_lcount p + add - p_target p pos) with (p_lcount p + add) by lia.
      rewrite Z.add_0_r. reflexivity.
    + cbn [py_assert bind]. injection V as <-. reflexivity.
  - destruct DK as [N K0]. pose proof N as N'. apply Z.eqb_neq in N'. rewrite N', K0.
    cbn [Z.eqb Pos.eqb py_assert bind].
    inversion D; subst; [|congruence].
    match goal with H : p_ltag p = 6 |- _ => rewrite H end. cbn. injection V as <-. reflexivity.
  - destruct DK as [N K0]. pose proof N as N'. apply Z.eqb_neq in N'. rewrite N', K0.
    cbn [Z.eqb Pos.eqb py_assert bind].
    inversion D; subst; [|congruence].
    match goal with H : p_ltag p = 7 |- _ => rewrite H end. cbn. injection V as <-. reflexivity.
Qed.

Lemma o_read_data_spec o d vs k dflt add r :
  obj_den o d vs -> 0 <= k -> vbytes (v_ptr vs k) dflt add = Some r ->
  o_read_data o (8 * k) dflt add = r.
Proof.
  intros O Hk V. destruct (o_resolve_spec o d vs k O Hk) as (pos & p & R & K & D).
  unfold o_read_data. rewrite R. cbn [bind]. apply (read_str_spec _ _ _ _ _ _ _ D K V).
Qed.

(** ** Lists *)

(** A list object designates [v]: it was made from a list pointer that
    denotes [v] ([VNull]: the empty list made from a null pointer). *)
Definition lobj_den (l : lobj) (v : value) : Prop :=
  (exists p pos, den (l_seg l) p pos v /\ p_kind p = 1 /\
     list_init (l_seg l) (p_target p pos) (p_ltag p) (p_lcount p) (l_it l) = Ok l) \/
  (v = VNull /\ l_count l = 0).

Lemma list_init_ok s p pos v t :
  den s p pos v -> p_kind p = 1 ->
  exists l, list_init s (deref p pos) (list_size_tag p) (list_item_count p) t = Ok l /\
    lobj_den l v /\ l_seg l = s /\ l_it l = t.
Proof.
  intros D K. rewrite deref_spec, size_tag_spec, item_count_spec.
  assert (E : exists l, list_init s (p_target p pos) (p_ltag p) (p_lcount p) t = Ok l /\ l_seg l = s /\ l_it l = t).
  { unfold list_init, LIST_SIZE_COMPOSITE. destruct (Z.eqb_spec (p_ltag p) 7) as [T|T].
    - inversion D; subst; try congruence; try lia.
      + cbn in K; discriminate.
      + match goal with H : word_at _ _ = Some _ |- _ => apply read_ptr_word in H; rewrite H end.
        cbn [bind]. eexists. split; [reflexivity|]. auto.
    - eexists. split; [reflexivity|]. auto. }
  destruct E as (l & E & S1 & T1). exists l. split; [exact E|]. split; [|auto].
  left. exists p, pos. rewrite S1, T1. auto.
Qed.

Lemma o_read_list_spec o d vs k t :
  obj_den o d vs -> 0 <= k ->
  match v_ptr vs k with
  | VNull => o_read_list o (8 * k) t = Ok None
  | VStruct _ _ => o_read_list o (8 * k) t = Err AssertionError
  | v => exists l, o_read_list o (8 * k) t = Ok (Some l) /\ lobj_den l v /\ l_seg l = o_seg o /\ l_it l = t
  end.
Proof.
  intros O Hk. destruct (o_resolve_spec o d vs k O Hk) as (pos & p & R & K & D).
  unfold o_read_list. rewrite R. cbn [bind].
  pose proof (den_kind0 _ _ _ _ D K) as DK.
  destruct (v_ptr vs k) as [|d' vs'|tg c b|vs'|ds ps items sl] eqn:V.
  1:{ subst p. reflexivity. }
  1:{ destruct DK as [N K0]. apply Z.eqb_neq in N. rewrite N, kind_spec, K0. reflexivity. }
  all: destruct DK as [N K0]; apply Z.eqb_neq in N; rewrite N, kind_spec, K0;
       cbn [Z.eqb Pos.eqb py_assert LIST bind];
       destruct (list_init_ok _ _ _ _ t D K0) as (l & E & LD & S1 & T1); rewrite E; cbn [bind];
       exists l; auto.
Qed.

(** The attributes of a list object *)
Lemma lobj_den_attrs l v : lobj_den l v ->
  l_count l = vcount v /\
  match v with
  | VNull | VStruct _ _ => True
  | VList t c b =>
      l_len l = list_item_length t /\ l_ioff l = 0 /\ 0 <= t <= 5 /\ 0 <= c /\ l_stag l = t /\
      bytes_at (l_seg l) (l_off l) (list_bytes t c) = Some b
  | VPtrs vs =>
      l_len l = 8 /\ l_ioff l = 0 /\ l_stag l = 6 /\ den_ptrs (l_seg l) (l_off l) (length vs) vs
  | VComp ds ps items sl =>
      l_len l = 8 * (ds + ps) /\ l_ioff l = 8 /\ l_stag l = 7 /\ 0 <= l_off l /\
      0 <= ds < 2 ^ 16 /\ 0 <= ps < 2 ^ 16 /\
      word_at (l_seg l) (l_off l) = Some (l_tag l) /\
      struct_data_size (l_tag l) = ds /\ struct_ptrs_size (l_tag l) = ps /\
      den_items (l_seg l) (l_off l + 8) ds ps (length items) items
  end.
Proof.
  intros [(p & pos & D & K & I)|[-> C]]; [|auto].
  unfold list_init, LIST_SIZE_COMPOSITE in I.
  inversion D; subst; try (cbn in K; discriminate); try congruence.
  - destruct (Z.eqb_spec (p_ltag p) 7) as [T|T]; [lia|]. apply ok_inj in I. rewrite <- I in *.
    cbn [l_count l_len l_ioff l_seg l_off l_stag vcount] in *.
    pose proof (p_ltag_range p). pose proof (p_lcount_range p).
    repeat (split; [first [reflexivity|lia]|]). assumption.
  - match goal with H : p_ltag p = 6 |- _ => rewrite H in I end. cbn [Z.eqb Pos.eqb] in I.
    apply ok_inj in I. rewrite <- I in *.
    cbn [l_count l_len l_ioff l_seg l_off l_stag vcount] in *.
    match goal with H : den_ptrs _ _ _ _ |- _ => pose proof (den_ptrs_len _ _ _ _ H) as L; rewrite L end.
    pose proof (p_lcount_range p).
    split; [unfold blen; lia|]. repeat (split; [reflexivity|]). assumption.
  - match goal with H : p_ltag p = 7 |- _ => rewrite H in I end. cbn [Z.eqb Pos.eqb] in I.
    match goal with H : word_at _ (p_target p pos) = Some _ |- _ =>
      pose proof H as W; apply read_ptr_word in H; rewrite H in I end.
    cbn [bind] in I. apply ok_inj in I. rewrite <- I in *.
    cbn [l_count l_len l_ioff l_seg l_off l_stag l_tag vcount] in *.
    match goal with H : den_items _ _ _ _ _ _ |- _ => pose proof (den_items_len _ _ _ _ _ _ H) as L; rewrite L end.
    rewrite offset_spec, data_size_spec, ptrs_size_spec.
    pose proof (p_dsize_range tag). pose proof (p_psize_range tag).
    destruct (word_at_some _ _ _ W) as (W1 & W2 & _).
    split; [unfold blen; lia|].
    repeat (split; [first [reflexivity|lia|assumption]|]). assumption.
Qed.

Lemma den_items_nth s : forall n pos ds ps items k d vs,
  0 <= ds -> 0 <= ps ->
  den_items s pos ds ps n items -> nth_error items k = Some (d, vs) ->
  bytes_at s (pos + 8 * ((ds + ps) * Z.of_nat k)) (8 * ds) = Some d /\
  den_ptrs s (pos + 8 * ((ds + ps) * Z.of_nat k) + 8 * ds) (Z.to_nat ps) vs.
Proof.
  induction n as [|n IH]; intros pos ds ps items k d vs Hd Hp H N.
  - inversion H; subst. destruct k; discriminate.
  - inversion H as [|? ? ? ? data vs0 items0 B P R]; subst.
    destruct k as [|k]; cbn [nth_error] in N.
    + injection N as <- <-. replace (pos + 8 * ((ds + ps) * Z.of_nat 0)) with pos by lia. auto.
    + destruct (IH _ _ _ _ _ _ _ Hd Hp R N) as [B' P'].
      replace (pos + 8 * ((ds + ps) * Z.of_nat (S k)))
        with (pos + 8 * (ds + ps) + 8 * ((ds + ps) * Z.of_nat k)) by lia. auto.
Qed.

Lemma land_pow2_testbit v k : 0 <= k -> negb (Z.land v (Z.shiftl 1 k) =? 0) = Z.testbit v k.
Proof.
  intros Hk. rewrite Z.shiftl_1_l.
  assert (E : Z.land v (2 ^ k) = if Z.testbit v k then 2 ^ k else 0).
  { apply Z.bits_inj'. intros i Hi. rewrite Z.land_spec, Z.pow2_bits_eqb by lia.
    destruct (Z.eqb_spec k i) as [->|N].
    - destruct (Z.testbit v i) eqn:T; cbn; [rewrite Z.pow2_bits_true by lia; reflexivity|rewrite Z.testbit_0_l; reflexivity].
    - rewrite andb_false_r. destruct (Z.testbit v k); [rewrite Z.pow2_bits_false by lia|rewrite Z.testbit_0_l]; reflexivity. }
  rewrite E. destruct (Z.testbit v k).
  - assert (2 ^ k <> 0) by (apply Z.pow_nonzero; lia). lia.
  - reflexivity.
Qed.

Lemma testbit_mod_pow2 v n k : 0 <= k < n -> Z.testbit (v mod 2 ^ n) k = Z.testbit v k.
Proof. intros H. apply Z.mod_pow2_bits_low. lia. Qed.

Lemma testbit_signed8 u k : 0 <= u < 256 -> 0 <= k < 8 ->
  Z.testbit (to_signed 8 u) k = Z.testbit u k.
Proof.
  intros Hu Hk. rewrite <- (testbit_mod_pow2 _ 8 k Hk).
  rewrite to_signed_mod_eq by lia. rewrite testbit_mod_pow2 by lia. reflexivity.
Qed.

Lemma sub_one (l : bytes) i : 0 <= i < blen l -> sub l i 1 = [getb l i].
Proof.
  intros H. apply bytes_ext.
  - rewrite blen_sub by lia. reflexivity.
  - intros k Hk. rewrite blen_sub in Hk by lia. rewrite getb_sub by lia.
    replace k with 0 by lia. rewrite Z.add_0_r. reflexivity.
Qed.

Lemma fsize_list_item f : list_item_length (tag_of f) = fsize f.
Proof. destruct f; reflexivity. Qed.
Lemma tag_of_bytes f c : list_bytes (tag_of f) c = fsize f * c.
Proof. destruct f; cbn [tag_of fsize]; unfold list_bytes; cbn [Z.eqb Pos.eqb]; lia. Qed.

(** Pointer item of a list of pointers *)
Lemma ptr_item s pos vs i :
  den_ptrs s pos (length vs) vs -> 0 <= i < blen vs ->
  exists p pos' p',
    read_ptr s (pos + 8 * i) = Ok p /\
    (if kind p =? FAR then read_far_ptr s (pos + 8 * i) else Ok (pos + 8 * i, p)) = Ok (pos', p') /\
    p_kind p' <> 2 /\ den s p' pos' (v_ptr vs i).
Proof.
  intros D Hi. unfold blen in Hi.
  destruct (den_ptrs_nth _ _ _ _ (Z.to_nat i) D) as (p & W & V); [lia|].
  replace (pos + 8 * Z.of_nat (Z.to_nat i)) with (pos + 8 * i) in * by lia.
  exists p. rewrite kind_spec. unfold FAR.
  destruct (Z.eqb_spec (p_kind p) 2) as [K|K].
  - destruct (den_far_inv _ _ _ _ V K) as (pos' & p' & F & K' & N' & D').
    exists pos', p'. split; [apply read_ptr_word; exact W|].
    split; [apply (read_far_ptr_spec _ _ _ _ _ W); exact F|]. auto.
  - exists (pos + 8 * i), p. split; [apply read_ptr_word; exact W|]. auto.
Qed.

(** ** Items *)

Definition item_den (s : seg) (t : itype) (x : item) (y : vitem) : Prop :=
  match x, y with
  | INone, VINone => True
  | IBool a, VIBool b => a = b
  | IInt a, VIInt b => a = b
  | IFloat d a, VIFloat d' b => d = d' /\ a = b
  | IObj o, VIObj d vs => obj_den o d vs /\ o_seg o = s
  | IBytes a, VIBytes (Ok b) => a = b
  | IList l, VIList v => lobj_den l v /\ l_seg l = s /\ l_it l = inner_type t
  | _, _ => False
  end.

Lemma read_item_spec l v i y :
  lobj_den l v -> 0 <= i < vcount v -> v_item (l_it l) v i = Some y ->
  match y with
  | VIBytes (Err e) => read_item l i = Err e
  | _ => exists x, read_item l i = Ok x /\ item_den (l_seg l) (l_it l) x y
  end.
Proof.
  intros L Hi Y. destruct (lobj_den_attrs _ _ L) as [C A].
  unfold read_item. unfold v_item in Y.
  destruct (l_it l) as [| |f|dbl|ds0 ps0|add|inner] eqn:T.
  - injection Y as <-. exists INone. split; [reflexivity|exact I].
  - destruct v as [|d vs|tg c b|vs|ds ps items sl]; try discriminate.
    destruct A as (A1 & A2 & A3 & A4 & A5 & B). cbn [vcount] in Hi.
    destruct (Z.eqb_spec tg 1) as [->|]; [|discriminate]. injection Y as <-.
    destruct (bytes_at_some _ _ _ _ B) as (B1 & B2 & B3 & B4 & B5).
    change (list_bytes 1 c) with ((c + 7) / 8) in *. unfold slen in *.
    rewrite read_primitive_in by (unfold slen; cbn [fsize]; lia). cbn [bind].
    eexists. split; [reflexivity|]. cbn [item_den].
    rewrite land_pow2_testbit by lia.
    unfold fdec. cbn [fsigned fsize]. rewrite sub_one by lia. cbn [le_dec].
    rewrite Z.mul_0_r, Z.add_0_r. change (8 * 1) with 8.
    rewrite testbit_signed8 by (try apply bZ_range; lia).
    rewrite B4. rewrite getb_sub by lia. reflexivity.
  - destruct v as [|d vs|tg c b|vs|ds ps items sl]; try discriminate.
    destruct A as (A1 & A2 & A3 & A4 & A5 & B). cbn [vcount] in Hi.
    destruct (Z.eqb_spec tg (tag_of f)) as [->|]; [|discriminate]. injection Y as <-.
    destruct (bytes_at_some _ _ _ _ B) as (B1 & B2 & B3 & B4 & B5).
    rewrite tag_of_bytes in *. rewrite fsize_list_item in A1. rewrite A1.
    pose proof (fsize_pos f). unfold slen in *.
    assert (i * fsize f + fsize f <= fsize f * c) by nia.
    assert (0 <= i * fsize f) by nia.
    rewrite read_primitive_in by (unfold slen; lia). cbn [bind].
    eexists. split; [reflexivity|]. cbn [item_den].
    rewrite B4, sub_sub by lia. reflexivity.
  - destruct v as [|d vs|tg c b|vs|ds ps items sl]; try discriminate.
    destruct A as (A1 & A2 & A3 & A4 & A5 & B). cbn [vcount] in Hi.
    assert (TG : (if dbl then 5 else 4) = tag_of (float_fmt dbl)) by (destruct dbl; reflexivity). rewrite TG in Y.
    assert (SZ : (if dbl then 8 else 4) = fsize (float_fmt dbl)) by (destruct dbl; reflexivity). rewrite SZ in Y.
    assert (FD : forall x, fdec (float_fmt dbl) x = le_dec x) by (intros x; destruct dbl; reflexivity).
    destruct (Z.eqb_spec tg (tag_of (float_fmt dbl))) as [->|]; [|discriminate]. injection Y as <-. rewrite <- FD.
    destruct (bytes_at_some _ _ _ _ B) as (B1 & B2 & B3 & B4 & B5).
    rewrite tag_of_bytes in *. rewrite fsize_list_item in A1. rewrite A1.
    pose proof (fsize_pos (float_fmt dbl)). unfold slen in *. set (f := float_fmt dbl) in *. clearbody f.
    assert (i * fsize f + fsize f <= fsize f * c) by nia.
    assert (0 <= i * fsize f) by nia.
    rewrite read_primitive_in by (unfold slen; lia). cbn [bind].
    eexists. split; [reflexivity|]. cbn [item_den]. split; [reflexivity|].
    rewrite B4, sub_sub by lia. reflexivity.
  - destruct v as [|d vs|tg c b|vs|ds ps items sl]; try discriminate.
    destruct A as (A1 & A2 & A3 & A4 & A5 & A6 & W & A7 & A8 & DI). cbn [vcount] in Hi.
    destruct (nth_error items (Z.to_nat i)) as [[d vs]|] eqn:N; [|discriminate]. injection Y as <-.
    destruct (den_items_nth _ _ _ _ _ _ _ _ _ (proj1 A5) (proj1 A6) DI N) as [B P].
    replace (Z.of_nat (Z.to_nat i)) with i in * by lia.
    assert (EO : offset_for_item l i = l_off l + 8 + 8 * ((ds + ps) * i))
      by (unfold offset_for_item; rewrite A1, A2; lia).
    rewrite EO, A7, A8. unfold init_from_buffer. cbn [o_off o_ptrs].
    destruct (bytes_at_some _ _ _ _ B) as (B1 & B2 & B3 & B4 & B5).
    destruct (den_ptrs_bounds _ _ _ _ P) as [P1 P2]. unfold slen in *.
    match goal with |- context [py_assert ?c] => replace c with true by (symmetry; lia) end.
    cbn [py_assert bind].
    match goal with |- context [py_assert ?c] => replace c with true by (symmetry; lia) end.
    cbn [py_assert bind]. eexists. split; [reflexivity|].
    cbn [item_den]. split; [|reflexivity]. unfold obj_den. cbn [o_seg o_off o_ptrs o_ds o_ps].
    repeat (split; [first [lia|assumption|split;lia]|]). exact P.
  - destruct v as [|d vs|tg c b|vs|ds ps items sl]; try discriminate.
    destruct A as (A1 & A2 & A3 & P). cbn [vcount] in Hi.
    destruct (vbytes (v_ptr vs i) None add) as [r|] eqn:VB; [|discriminate].
    injection Y as <-.
    destruct (ptr_item _ _ _ _ P Hi) as (p & pos' & p' & R & F & K & D).
    assert (EO : offset_for_item l i = l_off l + 8 * i)
      by (unfold offset_for_item; rewrite A1, A2; lia).
    rewrite EO, R. cbn [bind]. rewrite F. cbn [bind].
    rewrite (read_str_spec _ _ _ _ _ _ _ D K VB).
    destruct r as [b|e]; cbn [bind]; [|reflexivity].
    eexists. split; [reflexivity|]. reflexivity.
  - destruct v as [|d vs|tg c b|vs|ds ps items sl]; try discriminate.
    destruct A as (A1 & A2 & A3 & P). cbn [vcount] in Hi.
    destruct (ptr_item _ _ _ _ P Hi) as (p & pos' & p' & R & F & K & D).
    replace (l_off l + i * 8) with (l_off l + 8 * i) by lia.
    rewrite R. cbn [bind]. rewrite F. cbn [bind].
    pose proof (den_kind0 _ _ _ _ D K) as DK.
    destruct (v_ptr vs i) as [|d' vs'|tg' c' b'|vs'|ds' ps' items' sl'] eqn:V; try discriminate;
      injection Y as <-.
    + subst p'. cbn. eexists. split; [reflexivity|]. cbn [item_den].
      split; [|cbn; auto]. right. auto.
    + destruct DK as [_ K1]. destruct (list_init_ok _ _ _ _ inner D K1) as (l' & E & LD & S1 & T1).
      rewrite E. cbn [bind]. eexists. split; [reflexivity|]. cbn [item_den inner_type]. auto.
    + destruct DK as [_ K1]. destruct (list_init_ok _ _ _ _ inner D K1) as (l' & E & LD & S1 & T1).
      rewrite E. cbn [bind]. eexists. split; [reflexivity|]. cbn [item_den inner_type]. auto.
    + destruct DK as [_ K1]. destruct (list_init_ok _ _ _ _ inner D K1) as (l' & E & LD & S1 & T1).
      rewrite E. cbn [bind]. eexists. split; [reflexivity|]. cbn [item_den inner_type]. auto.
Qed.

Lemma vcount_nonneg l v : lobj_den l v -> 0 <= vcount v.
Proof.
  intros L. destruct (lobj_den_attrs _ _ L) as [C A].
  destruct v; cbn [vcount]; try lia; try apply blen_nonneg. 
Qed.

Lemma l_getitem_spec l v i :
  lobj_den l v ->
  l_getitem l i = match v_index (vcount v) i with Some j => read_item l j | None => Err IndexError end
  /\ (forall j, v_index (vcount v) i = Some j -> 0 <= j < vcount v).
Proof.
  intros L. destruct (lobj_den_attrs _ _ L) as [C _]. pose proof (vcount_nonneg _ _ L).
  unfold l_getitem, v_index. rewrite C.
  split.
  - destruct ((0 <=? i) && (i <? vcount v)) eqn:E1.
    + replace (i <? 0) with false by (symmetry; lia). rewrite E1. reflexivity.
    + destruct ((- vcount v <=? i) && (i <? 0)) eqn:E2.
      * replace (i <? 0) with true by (symmetry; lia).
        replace ((0 <=? i + vcount v) && (i + vcount v <? vcount v)) with true by (symmetry; lia).
        f_equal. lia.
      * destruct (Z.ltb_spec i 0).
        -- replace ((0 <=? i + vcount v) && (i + vcount v <? vcount v)) with false by (symmetry; lia). reflexivity.
        -- rewrite E1. reflexivity.
  - intros j. destruct ((0 <=? i) && (i <? vcount v)) eqn:E1; [intros [= <-]; lia|].
    destruct ((- vcount v <=? i) && (i <? 0)) eqn:E2; [intros [= <-]; lia|discriminate].
Qed.

(** ** Queries *)
Scheme query_ind2 := Induction for query Sort Prop
  with lquery_ind2 := Induction for lquery Sort Prop.
Combined Scheme query_mut from query_ind2, lquery_ind2.

Lemma run_value :
  (forall q o d vs r, obj_den o d vs -> vrun_s q d vs = Some r -> run_s q o = r) /\
  (forall q l v r, lobj_den l v -> vrun_l q (l_it l) v = Some r -> run_l q l = r).
Proof.
  apply query_mut.
  - intros off f o d vs r O V. cbn [vrun_s run_s] in *.
    destruct ((0 <=? off) && (off mod fsize f =? 0)) eqn:E; [|discriminate].
    rewrite (o_read_primitive_spec o d vs off f O) by lia. cbn [bind]. congruence.
  - intros off mask o d vs r O V. cbn [vrun_s run_s] in *.
    destruct (0 <=? off) eqn:E; [|discriminate].
    rewrite (o_read_bit_spec o d vs off mask O) by lia. cbn [bind]. congruence.
  - intros k dflt add o d vs r O V. cbn [vrun_s run_s] in *.
    destruct (0 <=? k) eqn:E; [|discriminate].
    destruct (vbytes (v_ptr vs k) dflt add) as [r0|] eqn:VB; [|discriminate].
    rewrite (o_read_data_spec o d vs k dflt add r0 O) by (try assumption; lia).
    destruct r0; cbn [bind]; congruence.
  - intros k q IH o d vs r O V. cbn [vrun_s run_s] in *.
    destruct (0 <=? k) eqn:E; [|discriminate].
    pose proof (o_read_struct_spec o d vs k O ltac:(lia)) as S.
    destruct (v_ptr vs k) as [|d' vs'|tg c b|vs'|ds ps items sl].
    + rewrite S. cbn [bind]. congruence.
    + destruct S as (o' & S & O' & _). rewrite S. cbn [bind]. eapply IH; eassumption.
    + rewrite S. cbn [bind]. congruence.
    + rewrite S. cbn [bind]. congruence.
    + rewrite S. cbn [bind]. congruence.
  - intros k t q IH o d vs r O V. cbn [vrun_s run_s] in *.
    destruct (0 <=? k) eqn:E; [|discriminate].
    pose proof (o_read_list_spec o d vs k t O ltac:(lia)) as S.
    destruct (v_ptr vs k) as [|d' vs'|tg c b|vs'|ds ps items sl].
    1,2: rewrite S; cbn [bind]; congruence.
    all: destruct S as (l & S & L & _ & T); rewrite S; cbn [bind]; rewrite <- T in V;
         eapply IH; eassumption.
  - intros l v r L V. cbn [vrun_l run_l] in *.
    destruct (lobj_den_attrs _ _ L) as [C _]. congruence.
  - intros i l v r L V. cbn [vrun_l run_l] in *.
    destruct (l_getitem_spec l v i L) as [G R]. rewrite G.
    destruct (v_index (vcount v) i) as [j|]; [|cbn [bind]; congruence].
    specialize (R j eq_refl).
    destruct (v_item (l_it l) v j) as [y|] eqn:Y; [|discriminate].
    pose proof (read_item_spec l v j y L R Y) as RI.
    destruct y as [|b|z|dbl z|d vs|[b|e]|v']; try (destruct RI as (x & RI & ID); rewrite RI; cbn [bind];
      destruct x; cbn [item_den] in ID; try contradiction; first [congruence|destruct ID; congruence]).
    rewrite RI. cbn [bind]. congruence.
  - intros i q IH l v r L V. cbn [vrun_l run_l] in *.
    destruct (l_getitem_spec l v i L) as [G R]. rewrite G.
    destruct (v_index (vcount v) i) as [j|]; [|cbn [bind]; congruence].
    specialize (R j eq_refl).
    destruct (v_item (l_it l) v j) as [y|] eqn:Y; [|discriminate].
    pose proof (read_item_spec l v j y L R Y) as RI.
    destruct y as [|b|z|dbl z|d vs|[b|e]|v']; try (destruct RI as (x & RI & ID); rewrite RI; cbn [bind];
      destruct x; cbn [item_den] in ID; try contradiction; first [congruence|destruct ID; congruence|idtac]).
    + destruct ID as [O _]. eapply IH; eassumption.
    + rewrite RI. cbn [bind]. congruence.
  - intros i q IH l v r L V. cbn [vrun_l run_l] in *.
    destruct (l_getitem_spec l v i L) as [G R]. rewrite G.
    destruct (v_index (vcount v) i) as [j|]; [|cbn [bind]; congruence].
    specialize (R j eq_refl).
    destruct (v_item (l_it l) v j) as [y|] eqn:Y; [|discriminate].
    pose proof (read_item_spec l v j y L R Y) as RI.
    destruct y as [|b|z|dbl z|d vs|[b|e]|v']; try (destruct RI as (x & RI & ID); rewrite RI; cbn [bind];
      destruct x; cbn [item_den] in ID; try contradiction; first [congruence|destruct ID; congruence|idtac]).
    + rewrite RI. cbn [bind]. congruence.
    + destruct ID as (L' & _ & T'). rewrite <- T' in V. eapply IH; eassumption.
Qed.
