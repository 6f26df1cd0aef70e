(** C67: the compiled packing functions (packing.pyx) against the pure ones
    (packing.py). *)
From Verif Require Import Base BaseFacts Spec Ptr Segment SegmentFacts CRead BuilderCFacts Packing.
From Coq Require Import Lia.

(** ** Specification *)

(** the [n]-byte field at [i] is in the buffer *)
Definition inside (buf : pybuf) (i n : Z) : Prop := 0 <= i /\ i + n <= blen (content buf).
(** the offset can be passed as a C int, and so can the end of the field *)
Definition int_span (i n : Z) : Prop := - 2 ^ 31 <= i /\ i + n < 2 ^ 31.

(** ** Facts *)

Lemma fsize_pos f : 1 <= fsize f <= 8.
Proof. destruct f; cbn; lia. Qed.

Lemma to_int_in i : - 2 ^ 31 <= i < 2 ^ 31 -> to_int i = Ok i.
Proof.
  intros H. unfold to_int. replace (in_fmtb Fi i) with true; auto.
  symmetry. apply in_fmtb_iff. unfold in_fmt, fmin, fmax. cbn [fsigned fsize]. lia.
Qed.

Lemma to_int_out i : ~ (- 2 ^ 31 <= i < 2 ^ 31) -> to_int i = Err OverflowError.
Proof.
  intros H. unfold to_int. destruct (in_fmtb Fi i) eqn:E; auto.
  apply in_fmtb_iff in E. unfold in_fmt, fmin, fmax in E. cbn [fsigned fsize] in E. lia.
Qed.

Lemma add32_in x y : - 2 ^ 31 <= x + y < 2 ^ 31 -> c_add32 x y = x + y.
Proof.
  intros H. unfold c_add32, to_signed.
  change (2 ^ 32) with 4294967296 in *. change (2 ^ (32 - 1)) with 2147483648 in *.
  change (2 ^ 31) with 2147483648 in *.
  destruct (Z.ltb_spec ((x + y) mod 4294967296) 2147483648);
    pose proof (Z.div_mod (x + y) 4294967296 ltac:(lia));
    pose proof (Z.mod_pos_bound (x + y) 4294967296 ltac:(lia)); lia.
Qed.

Lemma add32_over x y : 2 ^ 31 <= x + y < 2 ^ 31 + 8 -> c_add32 x y = x + y - 2 ^ 32.
Proof.
  intros H. unfold c_add32, to_signed.
  change (2 ^ 32) with 4294967296 in *. change (2 ^ (32 - 1)) with 2147483648 in *.
  change (2 ^ 31) with 2147483648 in *.
  destruct (Z.ltb_spec ((x + y) mod 4294967296) 2147483648);
    pose proof (Z.div_mod (x + y) 4294967296 ltac:(lia));
    pose proof (Z.mod_pos_bound (x + y) 4294967296 ltac:(lia)); lia.
Qed.

Lemma unpack_in f b i : 0 <= i -> i + fsize f <= blen b ->
  unpack_primitive f b i = Ok (fdec f (sub b i (fsize f))).
Proof.
  intros H1 H2. unfold unpack_primitive, unpack_from.
  replace (i <? 0) with false by (symmetry; apply Z.ltb_ge; lia).
  replace (blen b <? i + fsize f) with false by (symmetry; apply Z.ltb_ge; lia).
  cbn [orb]. replace (i <? 0) with false by (symmetry; apply Z.ltb_ge; lia). reflexivity.
Qed.

Lemma unpack_out f b i : ~ (0 <= i /\ i + fsize f <= blen b) ->
  unpack_primitive f b i = Err IndexError.
Proof.
  intros H. unfold unpack_primitive.
  destruct (Z.ltb_spec i 0); auto. destruct (Z.ltb_spec (blen b) (i + fsize f)); auto. lia.
Qed.

Lemma as_cbuf_r buf : as_cbuf buf false = Ok (content buf).
Proof. destruct buf; auto. Qed.

(** what [checkbound] decides when nothing overflows *)
Lemma checkbound_in f n i : int_span i (fsize f) -> 0 <= i -> i + fsize f <= n ->
  checkbound (fsize f) n i = Ok tt.
Proof.
  intros [H1 H2] H3 H4. pose proof (fsize_pos f). unfold checkbound. rewrite add32_in by lia.
  replace (i <? 0) with false by (symmetry; apply Z.ltb_ge; lia).
  replace (n <? i + fsize f) with false by (symmetry; apply Z.ltb_ge; lia). auto.
Qed.

Lemma checkbound_out f n i : int_span i (fsize f) -> ~ (0 <= i /\ i + fsize f <= n) ->
  checkbound (fsize f) n i = Err IndexError.
Proof.
  intros [H1 H2] H3. pose proof (fsize_pos f). unfold checkbound. rewrite add32_in by lia.
  destruct (Z.ltb_spec i 0); auto. destruct (Z.ltb_spec n (i + fsize f)); auto. lia.
Qed.

Lemma checkbound_over f n i : 0 <= n -> i < 2 ^ 31 <= i + fsize f ->
  checkbound (fsize f) n i = Ok tt.
Proof.
  intros Hn H. pose proof (fsize_pos f). unfold checkbound. rewrite add32_over by lia.
  change (2 ^ 31) with 2147483648 in *. change (2 ^ 32) with 4294967296.
  replace (i <? 0) with false by (symmetry; apply Z.ltb_ge; lia).
  replace (n <? i + fsize f - 4294967296) with false by (symmetry; apply Z.ltb_ge; lia). auto.
Qed.

Lemma mem_read_in f b i : 0 <= i -> i + fsize f <= blen b ->
  c_mem_read f b i = Ok (fdec f (sub b i (fsize f))).
Proof.
  intros. unfold c_mem_read.
  replace (0 <=? i) with true by (symmetry; apply Z.leb_le; lia).
  replace (i + fsize f <=? blen b) with true by (symmetry; apply Z.leb_le; lia). auto.
Qed.

Lemma mem_read_out f b i : ~ (0 <= i /\ i + fsize f <= blen b) -> c_mem_read f b i = Err MemFault.
Proof.
  intros H. unfold c_mem_read.
  destruct (Z.leb_spec 0 i); destruct (Z.leb_spec (i + fsize f) (blen b)); auto; lia.
Qed.

Lemma inside_dec buf i n : inside buf i n \/ ~ inside buf i n.
Proof. unfold inside. lia. Qed.

(** ** Reading *)

(** Unless the end of the field overflows a C int, the compiled
    unpack_primitive gives what the pure one gives: the number stored there,
    or IndexError. *)
Theorem C67_unpack_same : forall f buf i,
  int_span i (fsize f) ->
  c_unpack_primitive f buf i = py_unpack_primitive f buf i /\
  (inside buf i (fsize f) -> exists v, c_unpack_primitive f buf i = Ok v /\
     fmin f <= v <= fmax f /\ v mod 2 ^ (8 * fsize f) = le_dec (sub (content buf) i (fsize f))) /\
  (~ inside buf i (fsize f) -> c_unpack_primitive f buf i = Err IndexError).
Proof.
  intros f buf i H. pose proof (fsize_pos f). pose proof H as [A B].
  assert (E : inside buf i (fsize f) ->
    c_unpack_primitive f buf i = Ok (fdec f (sub (content buf) i (fsize f)))).
  { intros [U V]. unfold c_unpack_primitive. rewrite to_int_in by lia. cbn [bind].
    rewrite as_cbuf_r. cbn [bind]. rewrite checkbound_in by auto. cbn [bind].
    now apply mem_read_in. }
  assert (F : ~ inside buf i (fsize f) -> c_unpack_primitive f buf i = Err IndexError).
  { intros U. unfold c_unpack_primitive. rewrite to_int_in by lia. cbn [bind].
    rewrite as_cbuf_r. cbn [bind]. now rewrite checkbound_out. }
  split; [|split; auto].
  - unfold py_unpack_primitive. destruct (inside_dec buf i (fsize f)) as [I | I].
    + rewrite E by auto. destruct I. now rewrite unpack_in.
    + rewrite F by auto. now rewrite unpack_out.
  - intros I. exists (fdec f (sub (content buf) i (fsize f))). split; [auto|].
    assert (L : blen (sub (content buf) i (fsize f)) = fsize f) by (destruct I; apply blen_sub; lia).
    split; [apply (fdec_range f); auto|].
    pose proof (le_dec_range (sub (content buf) i (fsize f))) as R.
    unfold blen in L. unfold fdec, to_signed.
    assert (R' : 0 <= le_dec (sub (content buf) i (fsize f)) < 2 ^ (8 * fsize f)).
    { replace (2 ^ (8 * fsize f)) with (256 ^ Z.of_nat (Datatypes.length (sub (content buf) i (fsize f)))).
      exact R. rewrite L. now rewrite Z.pow_mul_r by lia. }
    destruct (fsigned f); [destruct (_ <? _)|]; try (apply Z.mod_small; auto).
    rewrite Zminus_mod, Z_mod_same_full, Z.sub_0_r, Z.mod_mod by lia. apply Z.mod_small; auto.
Qed.
Print Assumptions C67_unpack_same.

(** An offset which is not a C int is refused, even if the buffer is so large
    that the pure function would find a value there. *)
Theorem C67_unpack_large : forall f buf i,
  ~ (- 2 ^ 31 <= i < 2 ^ 31) -> c_unpack_primitive f buf i = Err OverflowError.
Proof. intros f buf i H. unfold c_unpack_primitive. now rewrite to_int_out. Qed.
Print Assumptions C67_unpack_large.

(** Refuted for the last few offsets: the bound check overflows, and the
    compiled functions read whatever is in memory there (the pure one raises
    IndexError). *)
Theorem C67_unpack_overflow_refuted : forall f buf i,
  i < 2 ^ 31 <= i + fsize f -> ~ inside buf i (fsize f) ->
  c_unpack_primitive f buf i = Err MemFault /\ py_unpack_primitive f buf i = Err IndexError.
Proof.
  intros f buf i H I. pose proof (fsize_pos f). split.
  - unfold c_unpack_primitive. change (2 ^ 31) with 2147483648 in *.
    rewrite to_int_in by (change (2 ^ 31) with 2147483648; lia). cbn [bind].
    rewrite as_cbuf_r. cbn [bind]. rewrite checkbound_over.
    + cbn [bind]. now rewrite mem_read_out.
    + unfold blen. lia.
    + change (2 ^ 31) with 2147483648; lia.
  - unfold py_unpack_primitive. now rewrite unpack_out.
Qed.
Print Assumptions C67_unpack_overflow_refuted.

(** unpack_int64, unpack_int16, unpack_uint32: inside the buffer the same
    number as the pure ones; outside of it, the pure ones raise IndexError and
    the compiled ones return 0. *)
Theorem C67_unpack_typed : forall buf i,
  let agree (c py : pybuf -> Z -> res Z) f :=
    int_span i (fsize f) ->
    (inside buf i (fsize f) -> c buf i = py buf i /\ py buf i = py_unpack_primitive f buf i) /\
    (~ inside buf i (fsize f) -> c buf i = Ok 0 /\ py buf i = Err IndexError) in
  agree c_unpack_int64 py_unpack_int64 Fq /\
  agree c_unpack_int16 py_unpack_int16 Fh /\
  agree c_unpack_uint32 py_unpack_uint32 FI.
Proof.
  intros buf i agree.
  assert (G : forall f, agree (c_unpack_typed f) (py_unpack_primitive f) f).
  { intros f H. pose proof (fsize_pos f). pose proof H as [A B].
    unfold c_unpack_typed, py_unpack_primitive. rewrite to_int_in by lia. cbn [bind].
    rewrite as_cbuf_r. cbn [bind]. split; intros I.
    - destruct I. rewrite checkbound_in by auto. cbn [bind]. rewrite mem_read_in, unpack_in by auto. auto.
    - rewrite checkbound_out, unpack_out by auto. auto. }
  repeat split; intros; try (now apply G); try (now apply (G Fq)); try (now apply (G Fh)); now apply (G FI).
Qed.
Print Assumptions C67_unpack_typed.

(** ** Writing *)

Lemma to_ctype_in f v : fmin f <= v <= fmax f -> to_ctype f v = Ok v.
Proof. intros H. unfold to_ctype. replace (in_fmtb f v) with true; auto. symmetry. now apply in_fmtb_iff. Qed.
Lemma to_ctype_out f v : ~ (fmin f <= v <= fmax f) -> to_ctype f v = Err OverflowError.
Proof. intros H. unfold to_ctype. destruct (in_fmtb f v) eqn:E; auto. apply in_fmtb_iff in E. contradiction. Qed.

Lemma py_pack_in f b i v : fmin f <= v <= fmax f -> 0 <= i -> i + fsize f <= blen b ->
  packing_pack_into f b i v = Ok (upd b i (fenc f v)).
Proof.
  intros H1 H2 H3. unfold packing_pack_into, pack_into.
  replace (in_fmtb f v) with true by (symmetry; now apply in_fmtb_iff). cbn [negb].
  replace (i <? 0) with false by (symmetry; apply Z.ltb_ge; lia).
  replace (blen b <? i + fsize f) with false by (symmetry; apply Z.ltb_ge; lia).
  replace (i <? 0) with false by (symmetry; apply Z.ltb_ge; lia). reflexivity.
Qed.

Lemma mem_write_in f b i v : 0 <= i -> i + fsize f <= blen b -> c_mem_write f b i v = Ok (upd b i (fenc f v)).
Proof.
  intros. unfold c_mem_write.
  replace (0 <=? i) with true by (symmetry; apply Z.leb_le; lia).
  replace (i + fsize f <=? blen b) with true by (symmetry; apply Z.leb_le; lia). auto.
Qed.

(** A value of the format written inside a bytearray: both functions leave
    the same buffer, in which the value reads back and the other bytes are
    unchanged. *)
Theorem C67_pack_into_same : forall f b i v,
  int_span i (fsize f) -> 0 <= i -> i + fsize f <= blen b -> fmin f <= v <= fmax f ->
  exists b', c_pack_into f (Bytearray b) i v = Ok (Bytearray b') /\
    py_pack_into f (Bytearray b) i v = Ok (Bytearray b') /\
    blen b' = blen b /\ py_unpack_primitive f (Bytearray b') i = Ok v /\
    (forall k, 0 <= k < blen b -> ~ (i <= k < i + fsize f) -> getb b' k = getb b k).
Proof.
  intros f b i v H H1 H2 H3. pose proof (fsize_pos f). pose proof H as [A B].
  exists (upd b i (fenc f v)).
  assert (L : blen (upd b i (fenc f v)) = blen b) by (apply blen_upd; rewrite ?blen_fenc; lia).
  split; [|split; [|split; [|split]]]; auto.
  - unfold c_pack_into. rewrite to_int_in by lia. cbn [bind as_cbuf].
    rewrite checkbound_in by auto. cbn [bind]. rewrite to_ctype_in by auto. cbn [bind].
    now rewrite mem_write_in by auto.
  - unfold py_pack_into. now rewrite py_pack_in by auto.
  - unfold py_unpack_primitive. cbn [content]. rewrite unpack_in by lia. f_equal.
    rewrite <- (blen_fenc f v) at 1. rewrite sub_upd_same by (rewrite ?blen_fenc; lia).
    now apply fdec_fenc.
  - intros k K1 K2. rewrite getb_upd, blen_fenc by (rewrite ?blen_fenc; lia).
    destruct (Z.leb_spec i k); destruct (Z.ltb_spec k (i + fsize f)); auto; lia.
Qed.
Print Assumptions C67_pack_into_same.

(** What is refused: outside of the buffer (IndexError in both, if the offset
    is not negative), a value which does not fit (IndexError in the pure
    function, OverflowError in the compiled one), a [bytes] object. *)
Theorem C67_pack_into_refused : forall f b i v,
  int_span i (fsize f) ->
  (0 <= i -> ~ inside (Bytearray b) i (fsize f) ->
     c_pack_into f (Bytearray b) i v = Err IndexError /\
     py_pack_into f (Bytearray b) i v = Err IndexError) /\
  (inside (Bytearray b) i (fsize f) -> ~ (fmin f <= v <= fmax f) ->
     c_pack_into f (Bytearray b) i v = Err OverflowError /\
     py_pack_into f (Bytearray b) i v = Err IndexError) /\
  c_pack_into f (Bytes b) i v = Err TypeError /\ py_pack_into f (Bytes b) i v = Err TypeError.
Proof.
  intros f b i v H. pose proof (fsize_pos f). pose proof H as [A B].
  unfold c_pack_into, py_pack_into. rewrite to_int_in by lia. cbn [bind as_cbuf].
  split; [|split]; auto.
  - intros H1 I. unfold inside in I. cbn [content] in I. rewrite checkbound_out by auto. split; auto.
    unfold packing_pack_into, pack_into. destruct (in_fmtb f v); auto. cbn [negb].
    replace (i <? 0) with false by (symmetry; apply Z.ltb_ge; lia).
    replace (i <? 0) with false by (symmetry; apply Z.ltb_ge; lia).
    replace (blen b <? i + fsize f) with true by (symmetry; apply Z.ltb_lt; lia). auto.
  - intros [I1 I2] V. cbn [content] in I2. rewrite checkbound_in by auto. cbn [bind].
    rewrite to_ctype_out by auto. split; auto.
    unfold packing_pack_into, pack_into. destruct (in_fmtb f v) eqn:E; auto.
    apply in_fmtb_iff in E. contradiction.
Qed.
Print Assumptions C67_pack_into_refused.

(** Refuted for negative offsets: the pure function counts them from the end
    of the buffer, as struct.pack_into does, and writes; the compiled one
    raises IndexError. *)
Theorem C67_pack_into_negative_refuted : forall f b i v,
  - 2 ^ 31 <= i -> i + fsize f <= 0 -> 0 <= blen b + i -> fmin f <= v <= fmax f ->
  c_pack_into f (Bytearray b) i v = Err IndexError /\
  py_pack_into f (Bytearray b) i v = py_pack_into f (Bytearray b) (blen b + i) v /\
  exists b', py_pack_into f (Bytearray b) i v = Ok (Bytearray b').
Proof.
  intros f b i v H1 H2 H3 V. pose proof (fsize_pos f).
  assert (E : packing_pack_into f b i v = Ok (upd b (blen b + i) (fenc f v))).
  { unfold packing_pack_into, pack_into.
    replace (in_fmtb f v) with true by (symmetry; now apply in_fmtb_iff). cbn [negb].
    replace (i <? 0) with true by (symmetry; apply Z.ltb_lt; lia).
    replace (i + blen b <? 0) with false by (symmetry; apply Z.ltb_ge; lia).
    replace (blen b <? i + blen b + fsize f) with false by (symmetry; apply Z.ltb_ge; lia).
    replace (0 <? i + fsize f) with false by (symmetry; apply Z.ltb_ge; lia).
    cbn [orb andb]. now rewrite (Z.add_comm i). }
  split; [|split].
  - unfold c_pack_into. rewrite to_int_in by lia. cbn [bind as_cbuf].
    rewrite checkbound_out; auto; [split|]; lia.
  - unfold py_pack_into. now rewrite E, py_pack_in by (auto; lia).
  - unfold py_pack_into. rewrite E. cbn [bind]. eauto.
Qed.
Print Assumptions C67_pack_into_negative_refuted.

(** The bound check of pack_into overflows too: the compiled function writes
    outside of the bytearray. *)
Theorem C67_pack_into_overflow_refuted : forall f b i v,
  i < 2 ^ 31 <= i + fsize f -> ~ inside (Bytearray b) i (fsize f) -> fmin f <= v <= fmax f ->
  c_pack_into f (Bytearray b) i v = Err MemFault /\ py_pack_into f (Bytearray b) i v = Err IndexError.
Proof.
  intros f b i v H I V. pose proof (fsize_pos f). change (2 ^ 31) with 2147483648 in *.
  unfold inside in I. cbn [content] in I. split.
  - unfold c_pack_into. rewrite to_int_in by (change (2 ^ 31) with 2147483648; lia). cbn [bind as_cbuf].
    rewrite checkbound_over; [|unfold blen; lia|change (2 ^ 31) with 2147483648; lia]. cbn [bind].
    rewrite to_ctype_in by auto. cbn [bind]. unfold c_mem_write.
    destruct (Z.leb_spec 0 i); destruct (Z.leb_spec (i + fsize f) (blen b)); auto; lia.
  - unfold py_pack_into, packing_pack_into, pack_into. destruct (in_fmtb f v); auto. cbn [negb].
    replace (i <? 0) with false by (symmetry; apply Z.ltb_ge; lia).
    replace (i <? 0) with false by (symmetry; apply Z.ltb_ge; lia).
    replace (blen b <? i + fsize f) with true by (symmetry; apply Z.ltb_lt; lia). auto.
Qed.
Print Assumptions C67_pack_into_overflow_refuted.

(** pack_int64_into and pack_int64: the same as writing with the format 'q'. *)
Theorem C67_pack_int64 : forall buf i v,
  - 2 ^ 63 <= v < 2 ^ 63 ->
  c_pack_int64_into buf i v = c_pack_into Fq buf i v /\
  py_pack_int64_into buf i v = py_pack_into Fq buf i v /\
  exists r, c_pack_int64 v = Ok r /\ py_pack_int64 v = Ok r /\ blen r = 8 /\
    py_unpack_int64 (Bytes r) 0 = Ok v.
Proof.
  intros buf i v H.
  assert (V : in_fmtb Fq v = true)
    by (apply in_fmtb_iff; unfold in_fmt, fmin, fmax; cbn [fsigned fsize]; lia).
  split; [|split].
  - unfold c_pack_int64_into, c_pack_into, to_long, to_ctype. rewrite V. cbn [bind].
    destruct (to_int i); auto.
  - reflexivity.
  - exists (fenc Fq v). unfold c_pack_int64, py_pack_int64, to_long, struct_pack. rewrite V.
    repeat split; auto.
    unfold py_unpack_int64, py_unpack_primitive. cbn [content].
    rewrite unpack_in by (rewrite ?blen_fenc; cbn [fsize]; lia). f_equal.
    rewrite <- (blen_fenc Fq v) at 1. rewrite sub_all. apply fdec_fenc. now apply in_fmtb_iff.
Qed.
Print Assumptions C67_pack_int64.

(** ** The message header *)

(** For a pointer which both accept, the compiled and the pure header are the
    same 16 bytes: segment count minus one, size, pointer. *)
Theorem C67_header_same : forall size p,
  - 2 ^ 31 <= size < 2 ^ 31 -> 0 <= p < 2 ^ 63 ->
  exists h, c_pack_message_header 1 size p = Ok h /\ py_pack_message_header 1 size p = Ok h /\
    blen h = 16 /\ py_unpack_uint32 (Bytes h) 0 = Ok 0 /\
    py_unpack_primitive Fi (Bytes h) 4 = Ok size /\ py_unpack_int64 (Bytes h) 8 = Ok p.
Proof.
  intros size p Hs Hp.
  assert (V1 : in_fmtb Fi size = true)
    by (apply in_fmtb_iff; unfold in_fmt, fmin, fmax; cbn [fsigned fsize]; lia).
  assert (V2 : in_fmtb Fq p = true)
    by (apply in_fmtb_iff; unfold in_fmt, fmin, fmax; cbn [fsigned fsize]; lia).
  assert (V3 : in_fmtb FQ p = true)
    by (apply in_fmtb_iff; unfold in_fmt, fmin, fmax; cbn [fsigned fsize]; lia).
  exists (fenc Fi 0 ++ fenc Fi size ++ fenc Fq p).
  assert (L : blen (fenc Fi 0 ++ fenc Fi size ++ fenc Fq p) = 16)
    by (rewrite !blen_app, !blen_fenc; reflexivity).
  split; [|split; [|split; [|split; [|split]]]]; auto.
  - unfold c_pack_message_header. rewrite to_int_in by lia. cbn [bind].
    rewrite to_int_in by lia. cbn [bind]. unfold to_long. rewrite V2. reflexivity.
  - unfold py_pack_message_header, struct_pack. cbn [bind py_assert]. rewrite V1, V3. reflexivity.
  - unfold py_unpack_primitive. cbn [content]. rewrite unpack_in by (rewrite ?L; cbn [fsize]; lia).
    f_equal. change (sub (fenc Fi 0 ++ fenc Fi size ++ fenc Fq p) 4 (fsize Fi)) with
      (sub (fenc Fi size ++ fenc Fq p) 0 (fsize Fi)).
    rewrite <- (blen_fenc Fi size) at 1. rewrite sub_app1, sub_all by (rewrite ?blen_fenc; cbn [fsize]; lia).
    apply fdec_fenc. now apply in_fmtb_iff.
  - unfold py_unpack_int64, py_unpack_primitive. cbn [content].
    rewrite unpack_in by (rewrite ?L; cbn [fsize]; lia).
    f_equal. change (sub (fenc Fi 0 ++ fenc Fi size ++ fenc Fq p) 8 (fsize Fq)) with
      (sub (fenc Fq p) 0 (fsize Fq)).
    rewrite <- (blen_fenc Fq p) at 1. rewrite sub_all. apply fdec_fenc. now apply in_fmtb_iff.
Qed.
Print Assumptions C67_header_same.

(** A pointer with the highest bit set is given as a negative number by the
    compiled pointer functions and as a positive one by the pure ones; each
    header function takes the number of its own side and writes the same
    bytes, and refuses the other one. *)
Theorem C67_header_sign : forall size p,
  - 2 ^ 31 <= size < 2 ^ 31 -> - 2 ^ 63 <= p < 0 ->
  (exists h, c_pack_message_header 1 size p = Ok h /\
             py_pack_message_header 1 size (p + 2 ^ 64) = Ok h) /\
  py_pack_message_header 1 size p = Err StructError /\
  c_pack_message_header 1 size (p + 2 ^ 64) = Err OverflowError.
Proof.
  intros size p Hs Hp.
  assert (V1 : in_fmtb Fi size = true)
    by (apply in_fmtb_iff; unfold in_fmt, fmin, fmax; cbn [fsigned fsize]; lia).
  assert (V2 : in_fmtb Fq p = true)
    by (apply in_fmtb_iff; unfold in_fmt, fmin, fmax; cbn [fsigned fsize]; lia).
  assert (V3 : in_fmtb FQ (p + 2 ^ 64) = true)
    by (apply in_fmtb_iff; unfold in_fmt, fmin, fmax; cbn [fsigned fsize]; lia).
  split; [|split].
  - exists (fenc Fi 0 ++ fenc Fi size ++ fenc Fq p). split.
    + unfold c_pack_message_header. rewrite to_int_in by lia. cbn [bind].
      rewrite to_int_in by lia. cbn [bind]. unfold to_long. rewrite V2. reflexivity.
    + unfold py_pack_message_header, struct_pack. cbn [bind py_assert]. rewrite V1, V3. cbn [bind].
      change (in_fmtb Fi (1 - 1)) with true. cbn [bind]. change (1 - 1) with 0. do 3 f_equal.
      unfold fenc. change (fsize FQ) with 8. change (fsize Fq) with 8.
      rewrite <- (le_enc_mod (Z.to_nat 8) (p + 2 ^ 64)), <- (le_enc_mod (Z.to_nat 8) p). f_equal.
      change (256 ^ Z.of_nat (Z.to_nat 8)) with (2 ^ 64).
      rewrite Z.add_mod, Z_mod_same_full, Z.add_0_r, Z.mod_mod by lia. reflexivity.
  - unfold py_pack_message_header, struct_pack. cbn [bind py_assert]. rewrite V1. cbn [bind].
    change (in_fmtb Fi (1 - 1)) with true. cbn [bind].
    replace (in_fmtb FQ p) with false; auto. symmetry. destruct (in_fmtb FQ p) eqn:E; auto.
    apply in_fmtb_iff in E. unfold in_fmt, fmin, fmax in E. cbn [fsigned fsize] in E. lia.
  - unfold c_pack_message_header. rewrite to_int_in by lia. cbn [bind].
    rewrite to_int_in by lia. cbn [bind]. unfold to_long.
    destruct (in_fmtb Fq (p + 2 ^ 64)) eqn:E; auto.
    apply in_fmtb_iff in E. unfold in_fmt, fmin, fmax in E. cbn [fsigned fsize] in E. lia.
Qed.
Print Assumptions C67_header_sign.

(** ** Non-vacuity *)
Definition ba := Bytearray [x01; xff; xfe; xff; x00; x07; x08; x09; x0a].

Example C67_ex_read :
  int_span 1 (fsize Fh) /\ inside ba 1 (fsize Fh) /\
  c_unpack_primitive Fh ba 1 = Ok (-257) /\ py_unpack_primitive Fh ba 1 = Ok (-257) /\
  c_unpack_primitive Fq ba 2 = Err IndexError /\
  c_unpack_int64 ba 1 = py_unpack_int64 ba 1 /\ c_unpack_int64 ba 2 = Ok 0 /\
  py_unpack_int64 ba 2 = Err IndexError /\
  c_unpack_primitive Fq ba 2147483647 = Err MemFault /\
  c_unpack_primitive Fq ba 2147483648 = Err OverflowError.
Proof. unfold int_span, inside. vm_compute. repeat split; discriminate. Qed.

Example C67_ex_write :
  c_pack_into Fh ba 2 (-2) = Ok (Bytearray [x01; xff; xfe; xff; x00; x07; x08; x09; x0a]) /\
  c_pack_into Fh ba 3 258 = Ok (Bytearray [x01; xff; xfe; x02; x01; x07; x08; x09; x0a]) /\
  py_pack_into Fh ba 3 258 = c_pack_into Fh ba 3 258 /\
  c_pack_into Fh ba 3 32768 = Err OverflowError /\ py_pack_into Fh ba 3 32768 = Err IndexError /\
  c_pack_into Fh ba (-2) 258 = Err IndexError /\
  py_pack_into Fh ba (-2) 258 = Ok (Bytearray [x01; xff; xfe; xff; x00; x07; x08; x02; x01]) /\
  c_pack_into FB ba 2147483647 1 = Err MemFault /\ c_pack_into FB (Bytes [x00]) 0 1 = Err TypeError.
Proof. vm_compute. repeat split. Qed.

Example C67_ex_header :
  c_pack_message_header 1 3 (-2) = py_pack_message_header 1 3 (2 ^ 64 - 2) /\
  c_pack_message_header 1 3 5 =
    Ok [x00;x00;x00;x00; x03;x00;x00;x00; x05;x00;x00;x00;x00;x00;x00;x00].
Proof. vm_compute. auto. Qed.
