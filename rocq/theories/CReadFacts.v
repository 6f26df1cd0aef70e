(** The compiled reads against the pure ones. *)
From Verif Require Import Base BaseFacts Spec Ptr PtrFacts PtrFinal Segment Builder Copy Endof Struct List
  Enc EncFacts SegmentFacts CRead CReadSpec.
From Coq Require Import ZifyBool.
Ltac Zify.zify_post_hook ::= Z.div_mod_to_equations.

Lemma ok_inj {A} (a b : A) : Ok a = Ok b -> a = b.
Proof. intros E. congruence. Qed.

Lemma c_add_small x y : - 2 ^ 63 <= x + y < 2 ^ 63 -> c_add x y = x + y.
Proof. apply wrap64_small. Qed.
Lemma c_mul_small x y : - 2 ^ 63 <= x * y < 2 ^ 63 -> c_mul x y = x * y.
Proof. apply wrap64_small. Qed.

Lemma readers p :
  C_KIND p = kind p /\ C_OFFSET p = offset p /\ C_STRUCT_DATA_SIZE p = struct_data_size p /\
  C_STRUCT_PTRS_SIZE p = struct_ptrs_size p /\ C_LIST_SIZE_TAG p = list_size_tag p /\
  C_LIST_ITEM_COUNT p = list_item_count p /\ C_FAR_LANDING_PAD p = far_landing_pad p /\
  C_FAR_OFFSET p = far_offset p /\ C_FAR_TARGET p = far_target p.
Proof. pose proof (f_c_readers p). intuition auto. Qed.

Ltac macros p :=
  let a := fresh in let b := fresh in let c := fresh in let d := fresh in
  let e := fresh in let f := fresh in let g := fresh in let h := fresh in let i := fresh in
  destruct (readers p) as (a & b & c & d & e & f & g & h & i);
  rewrite ?a, ?b, ?c, ?d, ?e, ?f, ?g, ?h, ?i; clear a b c d e f g h i.

(** ** primitives *)
Lemma c_read_primitive_eq s i f : blen (sbuf s) < 2 ^ 62 -> - 2 ^ 62 <= i <= 2 ^ 62 ->
  c_read_primitive s i f = read_primitive s i f.
Proof.
  intros HB Hi. assert (0 < fsize f <= 8) by (destruct f; cbn; lia).
  unfold c_read_primitive, c_check_bounds. rewrite c_add_small by lia.
  destruct (Z_le_dec 0 i) as [Z0|Z0], (Z_le_dec (i + fsize f) (slen s)) as [Z1|Z1]; unfold slen in *.
  - replace (_ || _) with false by lia. cbn [bind]. unfold c_load.
    replace (_ && _) with true by lia. symmetry. apply read_primitive_in; unfold slen; lia.
  - replace (_ || _) with true by lia. cbn [bind]. symmetry. apply read_primitive_out. unfold slen. lia.
  - replace (_ || _) with true by lia. cbn [bind]. symmetry. apply read_primitive_out. unfold slen. lia.
  - replace (_ || _) with true by lia. cbn [bind]. symmetry. apply read_primitive_out. unfold slen. lia.
Qed.

Lemma read_primitive_cases s i f :
  (exists z, read_primitive s i f = Ok z /\ 0 <= i /\ i + fsize f <= blen (sbuf s)) \/
  read_primitive s i f = Err IndexError.
Proof.
  destruct (read_primitive s i f) as [z|e] eqn:E.
  - left. exists z. apply read_primitive_ok in E. unfold slen in E. intuition auto.
  - right. destruct (Z_le_dec 0 i), (Z_le_dec (i + fsize f) (slen s));
      try (rewrite read_primitive_out in E by lia; congruence).
    rewrite read_primitive_in in E by lia. discriminate.
Qed.

Lemma c_read_ptr_eq s i : blen (sbuf s) < 2 ^ 62 -> - 2 ^ 62 <= i <= 2 ^ 62 ->
  (exists p, read_ptr s i = Ok p /\ c_read_ptr s i = Ok p /\ 0 <= i /\ i + 8 <= blen (sbuf s)) \/
  (read_ptr s i = Err IndexError /\ c_read_ptr s i = Ok 0).
Proof.
  intros HB Hi. unfold c_read_ptr. rewrite c_read_primitive_eq by assumption. unfold read_ptr.
  destruct (read_primitive_cases s i Fq) as [(z & E & B)|E]; rewrite E; cbn [swallow].
  - left. exists z. cbn [fsize] in B. tauto.
  - right. auto.
Qed.

(** ** far pointers *)
Lemma offsets_get_cases s t k : soffs s = Some t -> long_seg s ->
  (exists x, offsets_get t k = Ok x /\ 0 <= x <= blen (sbuf s)) \/ offsets_get t k = Err IndexError.
Proof.
  intros Hs (_ & L). rewrite Hs in L. unfold offsets_get.
  destruct (nth_error t (Z.to_nat k)) as [x|] eqn:E; [|auto].
  left. exists x. split; [reflexivity|]. rewrite Forall_forall in L. apply L. eapply nth_error_In; eauto.
Qed.

Lemma to_long_ok x : - 2 ^ 63 <= x < 2 ^ 63 -> to_long x = Ok x.
Proof.
  intros H. unfold to_long, in_fmtb, fmin, fmax. cbn [fsigned fsize].
  change (8 * 8 - 1) with 63. destruct (_ && _) eqn:E; [reflexivity|lia].
Qed.

(** the result of a far pointer is at a position that can be dereferenced *)
Definition far_pos (s : seg) (r : Z * Z) : Prop := -8 <= fst r <= blen (sbuf s) + 2 ^ 33.

Lemma c_read_far_ptr_eq s i : long_seg s -> - 2 ^ 62 <= i <= 2 ^ 62 ->
  (exists p, read_ptr s i = Ok p) ->
  (c_read_far_ptr s i = read_far_ptr s i \/
   (read_far_ptr s i = Err IndexError /\
    (c_read_far_ptr s i = Err AssertionError \/ exists k, c_read_far_ptr s i = Ok (k, 0)))) /\
  (forall r, c_read_far_ptr s i = Ok r -> far_pos s r).
Proof.
  intros L Hi (p0 & P0). pose proof (proj1 L) as HB.
  unfold c_read_far_ptr, read_far_ptr. destruct (soffs s) as [t|] eqn:Hs;
    [|split; [left; reflexivity|discriminate]].
  destruct (c_read_ptr_eq s i) as [(p & E1 & E2 & _)|(E1 & E2)]; [lia|lia| |congruence].
  rewrite E1, E2. cbn [bind]. macros p.
  pose proof (p_faroff_range p) as FR. rewrite <- far_offset_spec in FR.
  destruct (offsets_get_cases s t (far_target p) Hs L) as [(x & X & XR)|X]; rewrite X; cbn [bind];
    [|split; [left; reflexivity|discriminate]].
  rewrite c_mul_small, to_long_ok by lia. cbn [bind].
  destruct (far_landing_pad p =? 0).
  - destruct (c_read_ptr_eq s (x + far_offset p * 8)) as [(q & F1 & F2 & _)|(F1 & F2)]; [lia|lia| |];
      rewrite F1, F2; cbn [bind].
    + split; [left; reflexivity|]. intros r E. apply ok_inj in E. subst r. unfold far_pos. cbn [fst]. lia.
    + split; [right; split; [reflexivity|right; eauto]|]. intros r E. apply ok_inj in E. subst r. unfold far_pos. cbn [fst]. lia.
  - rewrite c_add_small by lia.
    destruct (c_read_ptr_eq s (x + far_offset p * 8)) as [(q & F1 & F2 & _)|(F1 & F2)]; [lia|lia| |];
      rewrite F1, F2; cbn [bind].
    + macros q. pose proof (p_faroff_range q) as FQ. rewrite <- far_offset_spec in FQ.
      destruct (c_read_ptr_eq s (x + far_offset p * 8 + 8)) as [(g & G1 & G2 & _)|(G1 & G2)]; [lia|lia| |];
        rewrite G1, G2; cbn [bind].
      * macros g. destruct (kind q =? FAR); cbn [py_assert bind]; [|split; [left; reflexivity|discriminate]].
        destruct (far_landing_pad q =? 0); cbn [py_assert bind]; [|split; [left; reflexivity|discriminate]].
        destruct (offset g =? 0); cbn [py_assert bind]; [|split; [left; reflexivity|discriminate]].
        destruct (offsets_get_cases s t (far_target q) Hs L) as [(y & Y & YR)|Y]; rewrite Y; cbn [bind];
          [|split; [left; reflexivity|discriminate]].
        rewrite c_mul_small, to_long_ok by lia. cbn [bind]. rewrite c_add_small by lia.
        replace (y + far_offset q * 8 + -8) with (y + far_offset q * 8 - 8) by lia.
        split; [left; reflexivity|]. intros r E. apply ok_inj in E. subst r. unfold far_pos. cbn [fst]. lia.
      * change (C_OFFSET 0) with 0. change (0 =? 0) with true.
        destruct (kind q =? FAR); cbn [py_assert bind];
          [|split; [right; split; [reflexivity|left; reflexivity]|discriminate]].
        destruct (far_landing_pad q =? 0); cbn [py_assert bind];
          [|split; [right; split; [reflexivity|left; reflexivity]|discriminate]].
        destruct (offsets_get_cases s t (far_target q) Hs L) as [(y & Y & YR)|Y]; rewrite Y; cbn [bind];
          [|split; [left; reflexivity|discriminate]].
        rewrite c_mul_small, to_long_ok by lia. cbn [bind]. rewrite c_add_small by lia.
        split; [right; split; [reflexivity|right; eauto]|]. intros r E. apply ok_inj in E. subst r. unfold far_pos. cbn [fst]. lia.
    + split; [right; split; [reflexivity|]|];
        destruct (c_read_ptr_eq s (x + far_offset p * 8 + 8)) as [(g & G1 & G2 & _)|(G1 & G2)]; try lia;
        rewrite G2; cbn [bind]; change (C_KIND 0 =? FAR) with false; cbn [py_assert bind]; [left; reflexivity..|discriminate|discriminate].
Qed.

(** the pointer at a position of the buffer, possibly far *)
Definition g_resolve (rp : seg -> Z -> res Z) (rf : seg -> Z -> res (Z * Z)) (s : seg) (i : Z) : res (Z * Z) :=
  do p <- rp s i;
  if kind p =? FAR then rf s i else Ok (i, p).

Lemma resolve_eq s i : long_seg s -> - 2 ^ 62 <= i <= 2 ^ 62 ->
  let a := g_resolve read_ptr read_far_ptr s i in
  let c := g_resolve c_read_ptr c_read_far_ptr s i in
  (c = a \/ (a = Err IndexError /\ (c = Err AssertionError \/ exists k, c = Ok (k, 0)))) /\
  (forall k p, c = Ok (k, p) -> p <> 0 -> -8 <= k <= blen (sbuf s) + 2 ^ 33).
Proof.
  intros L Hi. pose proof (proj1 L). unfold g_resolve. cbn zeta.
  destruct (c_read_ptr_eq s i) as [(p & E1 & E2 & B)|(E1 & E2)]; [lia|lia| |]; rewrite E1, E2; cbn [bind].
  - destruct (kind p =? FAR).
    + destruct (c_read_far_ptr_eq s i L Hi) as (D & R); [eauto|]. split; [exact D|].
      intros k q E _. apply R in E. exact E.
    + split; [left; reflexivity|]. intros k q [= <- <-] _. lia.
  - change (kind 0 =? FAR) with false. cbv iota. split.
    + right. split; [reflexivity|]. right. eauto.
    + intros k q [= <- <-]. congruence.
Qed.

(** ** struct objects *)
Lemma o_resolve_g o off : o_resolve o off =
  if o_ps o * 8 <=? off then Ok (off + o_ptrs o, 0)
  else g_resolve read_ptr read_far_ptr (o_seg o) (o_ptrs o + off).
Proof.
  unfold o_resolve, o_read_fast_ptr, o_read_far_ptr, g_resolve.
  destruct (o_ps o * 8 <=? off); [reflexivity|].
  destruct (read_ptr (o_seg o) (o_ptrs o + off)); cbn [bind]; [|reflexivity].
  rewrite (Z.add_comm off). reflexivity.
Qed.

Lemma swallow2 s i : swallow (c_read_ptr s i) = c_read_ptr s i.
Proof. unfold c_read_ptr. destruct (c_read_primitive s i Fq) as [z|[]]; reflexivity. Qed.

Lemma c_o_resolve_g o off : long_obj o -> 0 <= off < 2 ^ 20 -> c_o_resolve o off =
  if o_ps o * 8 <=? off then Ok (off + o_ptrs o, 0)
  else g_resolve c_read_ptr c_read_far_ptr (o_seg o) (o_ptrs o + off).
Proof.
  intros (L & OR & PO & DR & PR) Hoff. pose proof (proj1 L). pose proof (blen_nonneg (sbuf (o_seg o))).
  unfold c_o_resolve, c_o_read_fast_ptr, c_o_read_far_ptr, g_resolve.
  rewrite !c_mul_small, !c_add_small by lia.
  destruct (o_ps o * 8 <=? off); [reflexivity|]. rewrite swallow2.
  destruct (c_read_ptr (o_seg o) (o_ptrs o + off)) as [p|]; cbn [bind]; [|reflexivity].
  macros p. rewrite (Z.add_comm off). reflexivity.
Qed.

Lemma o_resolve_eq o off : long_obj o -> 0 <= off < 2 ^ 20 ->
  (c_o_resolve o off = o_resolve o off \/
   (o_resolve o off = Err IndexError /\
    (c_o_resolve o off = Err AssertionError \/ exists k, c_o_resolve o off = Ok (k, 0)))) /\
  (forall k p, c_o_resolve o off = Ok (k, p) -> p <> 0 -> -8 <= k <= blen (sbuf (o_seg o)) + 2 ^ 33).
Proof.
  intros LO Hoff. rewrite o_resolve_g, c_o_resolve_g by assumption.
  destruct LO as (L & OR & PO & DR & PR). pose proof (proj1 L). pose proof (blen_nonneg (sbuf (o_seg o))).
  destruct (o_ps o * 8 <=? off).
  - split; [left; reflexivity|]. intros k p [= <- <-]. congruence.
  - apply resolve_eq; [exact L|lia].
Qed.

Lemma c_init_eq s off ds ps : blen (sbuf s) < 2 ^ 60 -> - 2 ^ 62 <= off <= 2 ^ 62 ->
  0 <= ds < 2 ^ 16 -> 0 <= ps < 2 ^ 16 ->
  c_init_from_buffer s off ds ps = init_from_buffer s off ds ps.
Proof.
  intros. unfold c_init_from_buffer, init_from_buffer. cbn [o_off o_ptrs].
  rewrite (c_mul_small ds), (c_mul_small ps), !c_add_small by lia. reflexivity.
Qed.

Lemma init_long s off ds ps o : long_seg s -> - 2 ^ 41 <= off -> 0 <= ds < 2 ^ 16 -> 0 <= ps < 2 ^ 16 ->
  init_from_buffer s off ds ps = Ok o -> long_obj o.
Proof.
  intros L Ho Hd Hp. unfold init_from_buffer. cbn [o_off o_ptrs].
  destruct (_ <=? _) eqn:E1; cbn [py_assert bind]; [|discriminate].
  destruct (_ + ps * 8 <=? _) eqn:E2; cbn [py_assert bind]; [|discriminate].
  intros E. apply ok_inj in E. subst o. unfold long_obj. cbn [o_seg o_off o_ptrs o_ds o_ps]. repeat split; try apply L; lia.
Qed.

Lemma dsize_r p : 0 <= struct_data_size p < 2 ^ 16.
Proof. rewrite data_size_spec. apply p_dsize_range. Qed.
Lemma psize_r p : 0 <= struct_ptrs_size p < 2 ^ 16.
Proof. rewrite ptrs_size_spec. apply p_psize_range. Qed.
Lemma count_r p : 0 <= list_item_count p < 2 ^ 29.
Proof. rewrite item_count_spec. apply p_lcount_range. Qed.
Lemma tag_r p : 0 <= list_size_tag p < 8.
Proof. rewrite size_tag_spec. apply p_ltag_range. Qed.
Lemma off_r p : - 2 ^ 29 <= offset p < 2 ^ 29.
Proof. rewrite offset_spec. apply p_off_range. Qed.

Lemma c_init_ptr_eq s i p : long_seg s -> -8 <= i <= blen (sbuf s) + 2 ^ 33 ->
  c_init_from_pointer s i p = init_from_pointer s i p.
Proof.
  intros L Hi. pose proof (proj1 L). unfold c_init_from_pointer, init_from_pointer.
  macros p. rewrite C_deref_eq by lia.
  destruct (kind p =? STRUCT); cbn [py_assert bind]; [|reflexivity].
  pose proof (off_r p). apply c_init_eq; try lia; [|apply dsize_r|apply psize_r].
  unfold deref. lia.
Qed.

Lemma init_ptr_long s i p o : long_seg s -> -8 <= i -> init_from_pointer s i p = Ok o -> long_obj o.
Proof.
  intros L Hi. unfold init_from_pointer. destruct (kind p =? STRUCT); cbn [py_assert bind]; [|discriminate].
  pose proof (off_r p). apply init_long; [exact L| |apply dsize_r|apply psize_r]. unfold deref. lia.
Qed.

Lemma read_struct_eq o off : long_obj o -> 0 <= off < 2 ^ 20 ->
  differ (fun x => x = None) (o_read_struct o off) (c_o_read_struct o off) /\
  (forall o', c_o_read_struct o off = Ok (Some o') -> long_obj o').
Proof.
  intros LO Hoff. destruct (o_resolve_eq o off LO Hoff) as (D & R).
  pose proof (proj1 LO) as L. unfold o_read_struct, c_o_read_struct, differ.
  destruct D as [D|(D1 & [D2|(k & D2)])].
  - rewrite D in *. destruct (o_resolve o off) as [(k & p)|e]; cbn [bind]; [|split; [left; reflexivity|discriminate]].
    destruct (p =? 0) eqn:E; [split; [left; reflexivity|discriminate]|].
    assert (KR := R k p eq_refl ltac:(lia)). macros p.
    destruct (kind p =? STRUCT); cbn [py_assert bind]; [|split; [left; reflexivity|discriminate]].
    rewrite c_init_ptr_eq by assumption. split; [left; reflexivity|].
    destruct (init_from_pointer (o_seg o) k p) as [o1|] eqn:I; cbn [bind]; [|discriminate].
    intros o' [= <-]. eapply init_ptr_long; [exact L| |exact I]. lia.
  - rewrite D1, D2. cbn [bind]. split; [|discriminate]. right. auto.
  - rewrite D1, D2. cbn [bind]. change (0 =? 0) with true. cbv iota. split; [|discriminate].
    right. split; [reflexivity|]. right. eauto.
Qed.

Lemma read_str_eq s p i d a : long_seg s -> -8 <= i <= blen (sbuf s) + 2 ^ 33 -> -1 <= a <= 0 ->
  c_read_str s p i d a = read_str s p i d a.
Proof.
  intros L Hi Ha. pose proof (proj1 L). unfold c_read_str, read_str. macros p. rewrite C_deref_eq by lia.
  pose proof (off_r p). pose proof (count_r p). unfold deref. rewrite !c_add_small by (rewrite ?c_add_small by lia; lia). reflexivity.
Qed.

Lemma read_data_eq o off d a : long_obj o -> 0 <= off < 2 ^ 20 -> -1 <= a <= 0 ->
  differ (fun x => x = d) (o_read_data o off d a) (c_o_read_data o off d a).
Proof.
  intros LO Hoff Ha. destruct (o_resolve_eq o off LO Hoff) as (D & R).
  pose proof (proj1 LO) as L. unfold o_read_data, c_o_read_data, differ.
  destruct D as [D|(D1 & [D2|(k & D2)])].
  - rewrite D in *. destruct (o_resolve o off) as [(k & p)|e]; cbn [bind]; [|left; reflexivity].
    left. destruct (Z.eq_dec p 0) as [->|NZ]; [reflexivity|].
    apply read_str_eq; [exact L|apply (R k p eq_refl NZ)|exact Ha].
  - rewrite D1, D2. cbn [bind]. right. auto.
  - rewrite D1, D2. cbn [bind]. right. split; [reflexivity|]. right. exists d. split; reflexivity.
Qed.

Lemma o_read_primitive_eq o off f : long_obj o -> 0 <= off < 2 ^ 20 ->
  c_o_read_primitive o off f = o_read_primitive o off f.
Proof.
  intros (L & OR & PO & DR & PR) Hoff. pose proof (proj1 L). pose proof (blen_nonneg (sbuf (o_seg o))).
  unfold c_o_read_primitive, o_read_primitive.
  rewrite c_mul_small, c_add_small by lia. rewrite c_read_primitive_eq by lia. reflexivity.
Qed.

Lemma read_bit_eq o off m : long_obj o -> 0 <= off < 2 ^ 20 -> c_o_read_bit o off m = o_read_bit o off m.
Proof. intros. unfold c_o_read_bit, o_read_bit. rewrite o_read_primitive_eq by assumption. reflexivity. Qed.

Lemma which_eq o off : long_obj o -> 0 <= off < 2 ^ 20 ->
  c_o_which o off =
  match o_which o off with
  | Ok t => if t =? -1 then Err SystemError else Ok t
  | Err _ => Ok 0
  end.
Proof.
  intros LO Hoff. unfold c_o_which, o_which.
  transitivity (except_ (-1) (swallow (c_o_read_primitive o off Fh))); [reflexivity|].
  rewrite o_read_primitive_eq by assumption. unfold o_read_primitive.
  destruct (o_ds o * 8 <=? off); [reflexivity|].
  destruct (read_primitive_cases (o_seg o) (o_off o + off) Fh) as [(z & E & _)|E]; rewrite E; reflexivity.
Qed.

(** ** lists *)
Lemma item_len_eq t : 0 <= t < 8 -> pyx_list_item_length t = list_item_length t.
Proof. intros H. symmetry. apply item_length_eq. exact H. Qed.

Lemma item_len_r t : 0 <= t < 8 -> -1 <= list_item_length t <= 8.
Proof.
  intros H. assert (t = 0 \/ t = 1 \/ t = 2 \/ t = 3 \/ t = 4 \/ t = 5 \/ t = 6 \/ t = 7) as C by lia.
  destruct C as [->|[->|[->|[->|[->|[->|[->| ->]]]]]]]; cbv; split; discriminate.
Qed.

Lemma list_init_eq s i tag n it : long_seg s -> - 2 ^ 62 <= i <= 2 ^ 62 -> 0 <= tag < 8 -> 0 <= n < 2 ^ 29 ->
  (n = 0 /\ tag = 0 \/ - 2 ^ 40 <= i <= 2 ^ 61) ->
  (c_list_init s i tag n it = list_init s i tag n it \/
   (list_init s i tag n it = Err IndexError /\
    exists l, c_list_init s i tag n it = Ok l /\ l_count l = 0)) /\
  (forall l, c_list_init s i tag n it = Ok l -> long_list l /\ l_it l = it).
Proof.
  intros L Hi Ht Hn HH. pose proof (proj1 L). unfold c_list_init, list_init.
  destruct (tag =? LIST_SIZE_COMPOSITE) eqn:TE.
  - assert (- 2 ^ 40 <= i <= 2 ^ 61) by (unfold LIST_SIZE_COMPOSITE in TE; lia).
    destruct (c_read_ptr_eq s i) as [(g & G1 & G2 & _)|(G1 & G2)]; [lia|lia| |]; rewrite G1, G2; cbn [bind].
    + macros g. pose proof (dsize_r g). pose proof (psize_r g). pose proof (off_r g).
      rewrite c_add_small, c_mul_small by lia. split; [left; reflexivity|].
      intros l E. apply ok_inj in E. subst l. split; [|reflexivity]. unfold long_list. cbn [l_seg l_off l_count l_len l_ioff].
      split; [exact L|]. split; [lia|]. right. lia.
    + split; [right; split; [reflexivity|eexists; split; reflexivity]|].
      intros l E. apply ok_inj in E. subst l. split; [|reflexivity]. unfold long_list. cbn [l_seg l_off l_count l_len l_ioff].
      change (C_OFFSET 0) with 0. split; [exact L|]. split; [lia|]. left. reflexivity.
  - rewrite item_len_eq by assumption. pose proof (item_len_r tag Ht). split; [left; reflexivity|].
    intros l E. apply ok_inj in E. subst l. split; [|reflexivity]. unfold long_list. cbn [l_seg l_off l_count l_len l_ioff].
    split; [exact L|]. split; [lia|]. destruct HH as [HH|HH]; [left; lia|right; lia].
Qed.

Lemma read_list_eq o off t : long_obj o -> 0 <= off < 2 ^ 20 ->
  differ no_list (o_read_list o off t) (c_o_read_list o off t) /\
  (forall l, c_o_read_list o off t = Ok (Some l) -> long_list l /\ l_it l = t).
Proof.
  intros LO Hoff. destruct (o_resolve_eq o off LO Hoff) as (D & R).
  pose proof (proj1 LO) as L. pose proof (proj1 L). unfold o_read_list, c_o_read_list, differ.
  destruct D as [D|(D1 & [D2|(k & D2)])].
  - rewrite D in *. destruct (o_resolve o off) as [(k & p)|e]; cbn [bind]; [|split; [left; reflexivity|discriminate]].
    destruct (p =? 0) eqn:E; [split; [left; reflexivity|discriminate]|].
    assert (KR := R k p eq_refl ltac:(lia)). macros p. rewrite C_deref_eq by lia.
    destruct (kind p =? LIST); cbn [py_assert bind]; [|split; [left; reflexivity|discriminate]].
    pose proof (off_r p).
    destruct (list_init_eq (o_seg o) (deref p k) (list_size_tag p) (list_item_count p) t L) as (D2 & R2);
      [unfold deref; lia|apply tag_r|apply count_r|right; unfold deref; lia|].
    destruct D2 as [D2|(D2 & l & D3 & D4)].
    + rewrite D2 in *. split; [left; reflexivity|]. intros l. destruct (list_init _ _ _ _ _); cbn [bind]; [|discriminate].
      intros [= <-]. apply R2. reflexivity.
    + rewrite D2, D3 in *. cbn [bind]. split.
      * right. split; [reflexivity|]. right. exists (Some l). split; [reflexivity|]. exact D4.
      * intros l' [= <-]. apply R2. reflexivity.
  - rewrite D1, D2. cbn [bind]. split; [|discriminate]. right. auto.
  - rewrite D1, D2. cbn [bind]. change (0 =? 0) with true. cbv iota. split; [|discriminate].
    right. split; [reflexivity|]. right. exists None. split; [reflexivity|exact I].
Qed.

Lemma l_resolve_eq l i : long_list l -> - 2 ^ 62 <= i <= 2 ^ 62 ->
  let a := g_resolve read_ptr read_far_ptr (l_seg l) i in
  (c_l_resolve l i = a \/
   (a = Err IndexError /\ (c_l_resolve l i = Err AssertionError \/ exists k, c_l_resolve l i = Ok (k, 0)))) /\
  (forall k p, c_l_resolve l i = Ok (k, p) -> p <> 0 -> -8 <= k <= blen (sbuf (l_seg l)) + 2 ^ 33).
Proof.
  intros (L & _) Hi. cbn zeta. change (c_l_resolve l i) with
    (do p <- c_read_ptr (l_seg l) i; if C_KIND p =? FAR then c_read_far_ptr (l_seg l) i else Ok (i, p)).
  replace (do p <- c_read_ptr (l_seg l) i; if C_KIND p =? FAR then c_read_far_ptr (l_seg l) i else Ok (i, p))
    with (g_resolve c_read_ptr c_read_far_ptr (l_seg l) i).
  - apply resolve_eq; [exact L|lia].
  - unfold g_resolve. destruct (c_read_ptr (l_seg l) i) as [p|]; cbn [bind]; [|reflexivity]. macros p. reflexivity.
Qed.

Lemma mul_r i len : 0 <= i < 2 ^ 30 -> -1 <= len < 2 ^ 20 -> - 2 ^ 30 <= i * len <= 2 ^ 50.
Proof. intros. nia. Qed.

Lemma read_item_eq l i : long_list l -> it_ok (l_it l) -> 0 <= i < l_count l ->
  differ no_item (read_item l i) (c_read_item l i) /\
  (forall o, c_read_item l i = Ok (IObj o) -> long_obj o) /\
  (forall l', c_read_item l i = Ok (IList l') -> long_list l' /\ it_ok (l_it l')).
Proof.
  intros LL IT Hi. pose proof LL as (L & CR & [C0|(OR & LR & IR)]); [lia|]. pose proof (proj1 L).
  pose proof (blen_nonneg (sbuf (l_seg l))).
  pose proof (mul_r i (l_len l) ltac:(lia) LR).
  unfold read_item, c_read_item, differ. destruct (l_it l) as [| |f|dbl|ds ps|a|u]; cbn [it_ok] in IT.
  - split; [left; reflexivity|]. split; intros ? E; apply ok_inj in E; discriminate.
  - rewrite c_add_small by lia. rewrite c_read_primitive_eq by lia.
    split; [left; reflexivity|]. destruct (read_primitive _ _ Fb); cbn [bind]; split; intros ? E; try apply ok_inj in E; discriminate.
  - rewrite c_mul_small by lia. rewrite c_add_small by lia. rewrite c_read_primitive_eq by lia.
    split; [left; reflexivity|]. destruct (read_primitive _ _ f); cbn [bind]; split; intros ? E; try apply ok_inj in E; discriminate.
  - rewrite c_mul_small by lia. rewrite c_add_small by lia. rewrite c_read_primitive_eq by lia.
    split; [left; reflexivity|]. destruct (read_primitive _ _ (float_fmt dbl)); cbn [bind]; split; intros ? E; try apply ok_inj in E; discriminate.
  - macros (l_tag l). unfold c_offset_for_item, offset_for_item.
    rewrite c_mul_small by lia. rewrite !c_add_small by (rewrite ?c_add_small by lia; lia).
    rewrite c_init_eq; [|lia|lia|apply dsize_r|apply psize_r]. split; [left; reflexivity|].
    destruct (init_from_buffer _ _ _ _) as [o|] eqn:E; cbn [bind]; split; intros ? E2; try discriminate;
      apply ok_inj in E2; inversion E2.
    subst.
    eapply init_long; [exact L| |apply dsize_r|apply psize_r|exact E].
    lia.
  - unfold c_offset_for_item. rewrite c_mul_small by lia. rewrite !c_add_small by (rewrite ?c_add_small by lia; lia).
    change (l_off l + l_ioff l + i * l_len l) with (offset_for_item l i).
    assert (OB : - 2 ^ 62 <= offset_for_item l i <= 2 ^ 62) by (unfold offset_for_item; lia).
    destruct (l_resolve_eq l (offset_for_item l i) LL OB) as (D & R). cbn zeta in D.
    assert (ND : forall r : res (Z * Z), (forall o, (do (k, p) <- r; do b <- c_read_str (l_seg l) p k None a; Ok (IBytes b)) = Ok (IObj o) -> long_obj o) /\
                 (forall l', (do (k, p) <- r; do b <- c_read_str (l_seg l) p k None a; Ok (IBytes b)) = Ok (IList l') -> long_list l' /\ it_ok (l_it l'))).
    { intros [(k & p)|e]; cbn [bind]; [destruct (c_read_str _ _ _ _ _); cbn [bind]|]; split; intros ? E; try discriminate. }
    split; [|apply ND].
    set (A := do p <- read_ptr (l_seg l) (offset_for_item l i);
              do (o, q) <- (if kind p =? FAR then read_far_ptr (l_seg l) (offset_for_item l i) else Ok (offset_for_item l i, p));
              do b <- read_str (l_seg l) q o None a; Ok (IBytes b)).
    assert (EA : A = do (o, q) <- g_resolve read_ptr read_far_ptr (l_seg l) (offset_for_item l i);
                     do b <- read_str (l_seg l) q o None a; Ok (IBytes b)).
    { unfold A, g_resolve. destruct (read_ptr (l_seg l) (offset_for_item l i)); reflexivity. }
    change (A) with A in *. rewrite EA. clear EA A.
    destruct D as [D|(D1 & [D2|(k & D2)])].
    + rewrite D in *. destruct (g_resolve read_ptr read_far_ptr (l_seg l) (offset_for_item l i)) as [(k & p)|e]; cbn [bind]; [|left; reflexivity].
      left. destruct (Z.eq_dec p 0) as [->|NZ]; [reflexivity|].
      rewrite read_str_eq; [reflexivity|exact L|apply (R k p eq_refl NZ)|exact IT].
    + rewrite D1, D2. cbn [bind]. right. auto.
    + rewrite D1, D2. cbn [bind]. right. split; [reflexivity|]. right. exists (IBytes None). split; [reflexivity|exact I].
  - rewrite c_mul_small by lia. rewrite c_add_small by lia.
    assert (OB : - 2 ^ 62 <= l_off l + i * 8 <= 2 ^ 62) by lia.
    destruct (l_resolve_eq l (l_off l + i * 8) LL OB) as (D & R). cbn zeta in D.
    set (A := do p <- read_ptr (l_seg l) (l_off l + i * 8);
              do (o, q) <- (if kind p =? FAR then read_far_ptr (l_seg l) (l_off l + i * 8) else Ok (l_off l + i * 8, p));
              do l' <- list_init (l_seg l) (deref q o) (list_size_tag q) (list_item_count q) u; Ok (IList l')).
    assert (EA : A = do (o, q) <- g_resolve read_ptr read_far_ptr (l_seg l) (l_off l + i * 8);
                     do l' <- list_init (l_seg l) (deref q o) (list_size_tag q) (list_item_count q) u; Ok (IList l')).
    { unfold A, g_resolve. destruct (read_ptr (l_seg l) (l_off l + i * 8)); reflexivity. }
    rewrite EA. clear EA A.
    set (F := fun r : Z * Z => let (o, q) := r in
       do l' <- c_list_init (l_seg l) (C_DEREF q o) (C_LIST_SIZE_TAG q) (C_LIST_ITEM_COUNT q) u; Ok (IList l')).
    change (differ no_item (do (o, q) <- g_resolve read_ptr read_far_ptr (l_seg l) (l_off l + i * 8);
        do l' <- list_init (l_seg l) (deref q o) (list_size_tag q) (list_item_count q) u; Ok (IList l'))
       (bind (c_l_resolve l (l_off l + i * 8)) F) /\
      (forall o, bind (c_l_resolve l (l_off l + i * 8)) F = Ok (IObj o) -> long_obj o) /\
      (forall l', bind (c_l_resolve l (l_off l + i * 8)) F = Ok (IList l') -> long_list l' /\ it_ok (l_it l'))).
    assert (FO : forall r o, F r = Ok (IObj o) -> long_obj o).
    { intros (k & p) o. cbn [F]. destruct (c_list_init _ _ _ _ _); cbn [bind]; intros E; discriminate. }
    assert (FL : forall k p, (p <> 0 -> -8 <= k <= blen (sbuf (l_seg l)) + 2 ^ 33) -> - 2 ^ 61 <= k <= 2 ^ 61 + 2 ^ 40 ->
       (F (k, p) = (do l' <- list_init (l_seg l) (deref p k) (list_size_tag p) (list_item_count p) u; Ok (IList l')) \/
        (do l' <- list_init (l_seg l) (deref p k) (list_size_tag p) (list_item_count p) u; Ok (IList l')) = Err IndexError /\
         exists x, F (k, p) = Ok x /\ no_item x) /\
       (forall l', F (k, p) = Ok (IList l') -> long_list l' /\ it_ok (l_it l'))).
    { intros k p KP K. cbn [F]. macros p. rewrite C_deref_eq by lia. pose proof (off_r p).
      destruct (list_init_eq (l_seg l) (deref p k) (list_size_tag p) (list_item_count p) u L) as (D2 & R2);
        [unfold deref; lia|apply tag_r|apply count_r| |].
      { destruct (Z.eq_dec p 0) as [->|NZ]; [left; split; reflexivity|]. right. apply KP in NZ. unfold deref. lia. }
      destruct D2 as [D2|(D2 & l0 & D3 & D4)].
      - rewrite D2 in *. split; [left; reflexivity|]. intros l'. destruct (list_init _ _ _ _ _) as [l1|]; cbn [bind]; [|discriminate].
        intros E. apply ok_inj in E. inversion E; subst. destruct (R2 _ eq_refl) as (A1 & A2). split; [exact A1|]. rewrite A2. exact IT.
      - rewrite D2, D3 in *. cbn [bind]. split.
        + right. split; [reflexivity|]. exists (IList l0). split; [reflexivity|exact D4].
        + intros l' E. apply ok_inj in E. inversion E; subst. destruct (R2 _ eq_refl) as (A1 & A2). split; [exact A1|]. rewrite A2. exact IT. }
    assert (KB : forall k p, c_l_resolve l (l_off l + i * 8) = Ok (k, p) -> - 2 ^ 61 <= k <= 2 ^ 61 + 2 ^ 40).
    { intros k p E. unfold c_l_resolve in E.
      destruct (c_read_ptr_eq (l_seg l) (l_off l + i * 8)) as [(q & E1 & E2 & B)|(E1 & E2)]; [lia|lia| |];
        rewrite E2 in E; cbn [bind] in E.
      - destruct (C_KIND q =? FAR).
        + destruct (c_read_far_ptr_eq (l_seg l) (l_off l + i * 8) L OB) as (_ & RR); [eauto|].
          apply RR in E. unfold far_pos in E. cbn [fst] in E. lia.
        + apply ok_inj in E. apply (f_equal fst) in E. cbn [fst] in E. lia.
      - change (C_KIND 0 =? FAR) with false in E. apply ok_inj in E. apply (f_equal fst) in E. cbn [fst] in E. lia. }
    clearbody F. unfold differ.
    destruct D as [D|(D1 & [D2|(k & D2)])].
    + rewrite D in *. destruct (g_resolve read_ptr read_far_ptr (l_seg l) (l_off l + i * 8)) as [(k & p)|e]; cbn [bind].
      * destruct (FL k p (R k p eq_refl) (KB k p eq_refl)) as ([A1|(A1 & x & A2 & A3)] & A4).
        -- rewrite <- A1. split; [left; reflexivity|]. split; [apply FO|exact A4].
        -- rewrite A1. split; [right; split; [reflexivity|right; exists x; auto]|]. split; [apply FO|exact A4].
      * split; [left; reflexivity|]. split; discriminate.
    + rewrite D1, D2. cbn [bind]. split; [right; auto|]. split; discriminate.
    + rewrite D1, D2 in *. cbn [bind].
      destruct (FL k 0 (R k 0 eq_refl) (KB k 0 eq_refl)) as (A & A4).
      split; [|split; [apply FO|exact A4]]. right. split; [reflexivity|]. right.
      destruct A as [A1|(A1 & x & A2 & A3)]; [|exists x; auto].
      rewrite A1. change (list_size_tag 0) with 0. change (list_item_count 0) with 0.
      unfold list_init. change (0 =? LIST_SIZE_COMPOSITE) with false. cbn [bind].
      eexists. split; [reflexivity|reflexivity].
Qed.

Lemma getitem_eq l i : long_list l -> it_ok (l_it l) ->
  differ no_item (l_getitem l i) (c_l_getitem l i) /\
  (forall o, c_l_getitem l i = Ok (IObj o) -> long_obj o) /\
  (forall l', c_l_getitem l i = Ok (IList l') -> long_list l' /\ it_ok (l_it l')).
Proof.
  intros LL IT. unfold l_getitem, c_l_getitem.
  set (j := if i <? 0 then i + l_count l else i). clearbody j.
  destruct (_ && _) eqn:E; [apply read_item_eq; [exact LL|exact IT|lia]|].
  split; [left; reflexivity|]. split; discriminate.
Qed.

(** ** walks *)
Lemma field_off_20 off : field_off off -> 0 <= off < 2 ^ 20.
Proof. unfold field_off. lia. Qed.

Definition long_handle (h : handle) : Prop :=
  match h with
  | HNone => True
  | HObj o => long_obj o
  | HList l => long_list l /\ it_ok (l_it l)
  end.

Notation p_step := (do_step o_read_struct o_read_list l_getitem).
Notation c_step := (do_step c_o_read_struct c_o_read_list c_l_getitem).
Notation p_query := (do_query l_getitem o_read_primitive o_read_bit o_read_data o_which).
Notation c_query := (do_query c_l_getitem c_o_read_primitive c_o_read_bit c_o_read_data c_o_which).

Lemma differ_ok {A} (P : A -> Prop) a c x : differ P a c -> a = Ok x -> c = Ok x.
Proof. intros [->|(E & _)] H; congruence. Qed.

Lemma c_step_long h x h' : long_handle h -> step_ok x -> c_step h x = Ok h' -> long_handle h'.
Proof.
  intros LH SO. unfold do_step. destruct h as [|o|l]; [discriminate| |].
  - destruct x as [off|off t|i]; [| |discriminate].
    + destruct (read_struct_eq o off LH (field_off_20 _ SO)) as (_ & R).
      destruct (c_o_read_struct o off) as [[o'|]|]; cbn [bind]; intros E; try discriminate;
        apply ok_inj in E; subst h'; [apply R; reflexivity|exact I].
    + destruct SO as (SO & IT). destruct (read_list_eq o off t LH (field_off_20 _ SO)) as (_ & R).
      destruct (c_o_read_list o off t) as [[l|]|]; cbn [bind]; intros E; try discriminate;
        apply ok_inj in E; subst h'; [|exact I].
      destruct (R l eq_refl) as (A & B). split; [exact A|]. rewrite B. exact IT.
  - destruct x as [off|off t|i]; [discriminate|discriminate|].
    destruct LH as (LL & IT). destruct (getitem_eq l i LL IT) as (_ & R1 & R2).
    destruct (c_l_getitem l i) as [y|]; cbn [bind]; [|discriminate].
    destruct y as [| | | |o|b|l']; intros E; try discriminate; apply ok_inj in E; subst h'.
    + apply R1. reflexivity.
    + apply R2. reflexivity.
Qed.

Lemma step_agree h x h' : long_handle h -> step_ok x -> p_step h x = Ok h' -> c_step h x = Ok h'.
Proof.
  intros LH SO. unfold do_step. destruct h as [|o|l]; [discriminate| |].
  - destruct x as [off|off t|i]; [| |discriminate].
    + destruct (read_struct_eq o off LH (field_off_20 _ SO)) as (D & _).
      destruct (o_read_struct o off) as [r|] eqn:E; [|discriminate].
      rewrite (differ_ok _ _ _ r D eq_refl). auto.
    + destruct SO as (SO & IT). destruct (read_list_eq o off t LH (field_off_20 _ SO)) as (D & _).
      destruct (o_read_list o off t) as [r|] eqn:E; [|discriminate].
      rewrite (differ_ok _ _ _ r D eq_refl). auto.
  - destruct x as [off|off t|i]; [discriminate|discriminate|].
    destruct LH as (LL & IT). destruct (getitem_eq l i LL IT) as (D & _).
    destruct (l_getitem l i) as [r|] eqn:E; [|discriminate].
    rewrite (differ_ok _ _ _ r D eq_refl). auto.
Qed.

Lemma steps_agree xs : forall h h', long_handle h -> Forall step_ok xs ->
  do_steps o_read_struct o_read_list l_getitem h xs = Ok h' ->
  do_steps c_o_read_struct c_o_read_list c_l_getitem h xs = Ok h' /\ long_handle h'.
Proof.
  induction xs as [|x r IH]; intros h h' LH SO; cbn [do_steps].
  - intros E. apply ok_inj in E. subst. split; [reflexivity|exact LH].
  - inversion SO; subst. destruct (p_step h x) as [h1|] eqn:E; cbn [bind]; [|discriminate].
    pose proof (step_agree h x h1 LH ltac:(assumption) E) as E2. rewrite E2. cbn [bind].
    apply IH; [|assumption]. eapply c_step_long; eauto.
Qed.

Lemma query_agree h q a : long_handle h -> query_ok q -> p_query h q = Ok a ->
  c_query h q = (match q, a with QWhich _, ANum (-1) => Err SystemError | _, _ => Ok a end).
Proof.
  intros LH QO. unfold do_query. destruct h as [|o|l]; [discriminate| |].
  - destruct q as [off f|off m|off d t|off|i|]; try discriminate; apply field_off_20 in QO.
    + rewrite o_read_primitive_eq by assumption. auto.
    + rewrite read_bit_eq by assumption. auto.
    + pose proof (read_data_eq o off d (if t then -1 else 0) LH QO ltac:(destruct t; lia)) as D.
      destruct (o_read_data o off d (if t then -1 else 0)) as [r|]; [|discriminate].
      rewrite (differ_ok _ _ _ r D eq_refl). auto.
    + rewrite which_eq by assumption. destruct (o_which o off) as [z|]; cbn [bind]; [|discriminate].
      intros E. apply ok_inj in E. subst a.
      destruct (z =? -1) eqn:Z1.
      * replace z with (-1) by lia. reflexivity.
      * destruct z as [|p|p]; try reflexivity. destruct p; try reflexivity. lia.
  - destruct q as [off f|off m|off d t|off|i|]; try discriminate; [|auto].
    destruct LH as (LL & IT). destruct (getitem_eq l i LL IT) as (D & _).
    destruct (l_getitem l i) as [r|] eqn:E; [|discriminate].
    rewrite (differ_ok _ _ _ r D eq_refl). auto.
Qed.

(** ** no access outside of the buffer *)
Definition nf {A} (r : res A) : Prop := r <> Err MemFault.
Lemma nf_bind {A B} (r : res A) (f : A -> res B) : nf r -> (forall a, nf (f a)) -> nf (bind r f).
Proof. unfold nf. intros H1 H2. destruct r as [a|e]; cbn [bind]; [apply H2|congruence]. Qed.
Lemma nf_ok {A} (a : A) : nf (Ok a). Proof. discriminate. Qed.
Lemma nf_assert b : nf (py_assert b). Proof. destruct b; discriminate. Qed.
Lemma nf_prim s i f : nf (read_primitive s i f).
Proof. destruct (read_primitive_cases s i f) as [(z & E & _)|E]; rewrite E; discriminate. Qed.
Lemma nf_far s i : nf (read_far_ptr s i).
Proof.
  unfold read_far_ptr. destruct (soffs s); [|discriminate].
  assert (OG : forall k, nf (offsets_get l k)) by (intros k; unfold offsets_get, nf; destruct (nth_error l (Z.to_nat k)); discriminate).
  repeat (apply nf_bind; [first [apply nf_prim|apply OG|apply nf_assert]|intros]).
  destruct (_ =? 0); repeat (apply nf_bind; [first [apply nf_prim|apply OG|apply nf_assert]|intros]); apply nf_ok.
Qed.
Lemma nf_resolve o off : nf (o_resolve o off).
Proof.
  unfold o_resolve, o_read_fast_ptr, o_read_far_ptr. apply nf_bind; [destruct (_ <=? _); [apply nf_ok|apply nf_prim]|].
  intros p. destruct (_ =? _); [destruct (_ <=? _); [apply nf_ok|apply nf_far]|apply nf_ok].
Qed.
Lemma nf_init s o d p : nf (init_from_buffer s o d p).
Proof. unfold init_from_buffer. repeat (apply nf_bind; [apply nf_assert|intros]). apply nf_ok. Qed.
Lemma nf_struct o off : nf (o_read_struct o off).
Proof.
  unfold o_read_struct. apply nf_bind; [apply nf_resolve|]. intros (k & p). destruct (p =? 0); [apply nf_ok|].
  apply nf_bind; [apply nf_assert|]. intros. apply nf_bind; [|intros; apply nf_ok].
  unfold init_from_pointer. apply nf_bind; [apply nf_assert|]. intros. apply nf_init.
Qed.
Lemma nf_list_init s i t n u : nf (list_init s i t n u).
Proof. unfold list_init. destruct (_ =? _); [|apply nf_ok]. apply nf_bind; [apply nf_prim|]. intros. apply nf_ok. Qed.
Lemma nf_list o off t : nf (o_read_list o off t).
Proof.
  unfold o_read_list. apply nf_bind; [apply nf_resolve|]. intros (k & p). destruct (p =? 0); [apply nf_ok|].
  apply nf_bind; [apply nf_assert|]. intros. apply nf_bind; [apply nf_list_init|]. intros. apply nf_ok.
Qed.
Lemma nf_str s p i d a : nf (read_str s p i d a).
Proof. unfold read_str. destruct (p =? 0); [apply nf_ok|]. repeat (apply nf_bind; [apply nf_assert|intros]). apply nf_ok. Qed.
Lemma nf_getitem l i : nf (l_getitem l i).
Proof.
  unfold l_getitem. destruct (_ && _); [|discriminate]. generalize (if i <? 0 then i + l_count l else i). intros j.
  unfold read_item. destruct (l_it l) as [| |f|dbl|ds ps|a|u].
  - apply nf_ok.
  - apply nf_bind; [apply nf_prim|]. intros. apply nf_ok.
  - apply nf_bind; [apply nf_prim|]. intros. apply nf_ok.
  - apply nf_bind; [apply nf_prim|]. intros. apply nf_ok.
  - apply nf_bind; [apply nf_init|]. intros. apply nf_ok.
  - apply nf_bind; [apply nf_prim|]. intros. apply nf_bind; [destruct (_ =? _); [apply nf_far|apply nf_ok]|].
    intros (k & q). apply nf_bind; [apply nf_str|]. intros. apply nf_ok.
  - apply nf_bind; [apply nf_prim|]. intros. apply nf_bind; [destruct (_ =? _); [apply nf_far|apply nf_ok]|].
    intros (k & q). apply nf_bind; [apply nf_list_init|]. intros. apply nf_ok.
Qed.

Lemma nf_differ {A} (P : A -> Prop) a c : differ P a c -> nf a -> nf c.
Proof. unfold nf. intros [->|(_ & [->|(x & -> & _)])]; [auto|discriminate|discriminate]. Qed.

Lemma c_step_nf h x : long_handle h -> step_ok x -> nf (c_step h x).
Proof.
  intros LH SO. unfold do_step. destruct h as [|o|l]; [discriminate| |].
  - destruct x as [off|off t|i]; [| |discriminate].
    + apply nf_bind; [|intros; apply nf_ok].
      eapply nf_differ; [apply (read_struct_eq o off LH (field_off_20 _ SO))|apply nf_struct].
    + destruct SO as (SO & IT). apply nf_bind; [|intros; apply nf_ok].
      eapply nf_differ; [apply (read_list_eq o off t LH (field_off_20 _ SO))|apply nf_list].
  - destruct x as [off|off t|i]; [discriminate|discriminate|].
    destruct LH as (LL & IT). apply nf_bind; [|intros []; first [apply nf_ok|discriminate]].
    eapply nf_differ; [apply (getitem_eq l i LL IT)|apply nf_getitem].
Qed.

Lemma c_query_nf h q : long_handle h -> query_ok q -> nf (c_query h q).
Proof.
  intros LH QO. unfold do_query. destruct h as [|o|l]; [discriminate| |].
  - destruct q as [off f|off m|off d t|off|i|]; try discriminate; apply field_off_20 in QO;
      (apply nf_bind; [|intros; apply nf_ok]).
    + rewrite o_read_primitive_eq by assumption. unfold o_read_primitive. destruct (_ <=? _); [apply nf_ok|apply nf_prim].
    + rewrite read_bit_eq by assumption. unfold o_read_bit, o_read_primitive.
      apply nf_bind; [destruct (_ <=? _); [apply nf_ok|apply nf_prim]|intros; apply nf_ok].
    + eapply nf_differ; [apply (read_data_eq o off d (if t then -1 else 0) LH QO); destruct t; lia|].
      unfold o_read_data. apply nf_bind; [apply nf_resolve|]. intros (k & p). apply nf_str.
    + rewrite which_eq by assumption. destruct (o_which o off) as [z|]; [destruct (z =? -1)|]; discriminate.
  - destruct q as [off f|off m|off d t|off|i|]; try discriminate.
    destruct LH as (LL & IT). apply nf_bind; [|intros []; first [apply nf_ok|discriminate]].
    eapply nf_differ; [apply (getitem_eq l i LL IT)|apply nf_getitem].
Qed.

Lemma c_walk_nf xs : forall h q, long_handle h -> Forall step_ok xs -> query_ok q ->
  nf (walk c_o_read_struct c_o_read_list c_l_getitem c_o_read_primitive c_o_read_bit c_o_read_data c_o_which h xs q).
Proof.
  unfold walk. induction xs as [|x r IH]; intros h q LH SO QO; cbn [do_steps].
  - cbn [bind]. apply c_query_nf; assumption.
  - inversion SO; subst. destruct (c_step h x) as [h1|e] eqn:E; cbn [bind].
    + apply IH; try assumption. eapply c_step_long; eauto.
    + intros F. apply (c_step_nf h x LH ltac:(assumption)). congruence.
Qed.
