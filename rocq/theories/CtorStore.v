(** The buffer of a struct under construction, as a data section and a list
    of values. *)
From Verif Require Import Base Spec BaseFacts Ptr PtrFacts Segment SegmentFacts Builder Copy Enc EncFacts
  EncDen CopyFacts Struct List Query StructFacts ObjFacts CopyList ArgSpec CopyListFacts Ctor CtorSpec.
From Coq Require Import ZifyBool ZifyNat.
Ltac Zify.zify_post_hook ::= Z.div_mod_to_equations.

(** ** Bits *)
Definition bit_at (d : bytes) (i : Z) : bool := Z.testbit (bZ (getb d (i / 8))) (i mod 8).

Lemma byte_ext a b : (forall j, 0 <= j < 8 -> Z.testbit (bZ a) j = Z.testbit (bZ b) j) -> a = b.
Proof.
  intros H. apply bZ_inj. apply Z.bits_inj'. intros j Hj.
  destruct (Z.ltb_spec j 8); [apply H; lia|].
  assert (T : forall c, Z.testbit (bZ c) j = false).
  { intros c. pose proof (bZ_range c). destruct (Z.eq_dec (bZ c) 0) as [->|N]; [apply Z.testbit_0_l|].
    apply Z.bits_above_log2; [lia|]. apply Z.log2_lt_pow2; [lia|].
    apply Z.lt_le_trans with (2 ^ 8); [lia|]. apply Z.pow_le_mono_r; lia. }
  rewrite !T. reflexivity.
Qed.

Lemma bits_sub d d' i n : 0 <= i -> 0 <= n -> i + n <= blen d -> i + n <= blen d' ->
  (forall j, 8 * i <= j < 8 * (i + n) -> bit_at d j = bit_at d' j) -> sub d i n = sub d' i n.
Proof.
  intros Hi Hn Hd Hd' H. apply bytes_ext; rewrite !blen_sub by lia; [reflexivity|].
  intros k Hk. rewrite !getb_sub by lia. apply byte_ext. intros j Hj.
  specialize (H (8 * (i + k) + j) ltac:(lia)). unfold bit_at in H.
  replace ((8 * (i + k) + j) / 8) with (i + k) in H by lia.
  replace ((8 * (i + k) + j) mod 8) with j in H by lia. exact H.
Qed.

Lemma bit_upd_other d i b j : 0 <= i -> i + blen b <= blen d -> 0 <= j < 8 * blen d ->
  ~ (8 * i <= j < 8 * (i + blen b)) -> bit_at (upd d i b) j = bit_at d j.
Proof.
  intros Hi Hd Hj N. unfold bit_at. rewrite getb_upd by lia.
  destruct (_ && _) eqn:E; [lia|reflexivity].
Qed.

(** ** The representation *)
Section Store.
Variables ds ps : Z.
Hypothesis Hds : 0 <= ds < 2 ^ 16.
Hypothesis Hps : 0 <= ps < 2 ^ 16.

Definition seg_of (buf : bytes) : seg := {| sbuf := buf; soffs := None |}.

(** the pointer at [pos] is the encoding of [v], whose content is behind the
    struct *)
Definition pslot (buf : bytes) (pos : Z) (v : value) : Prop :=
  wfv v /\ exists off, sub buf pos 8 = le_enc 8 (ptr_word v off) /\ 0 <= off < 2 ^ 29 /\
    8 * (ds + ps) <= pos + 8 + 8 * off /\ at_ (seg_of buf) (pos + 8 + 8 * off) (content v).

Record store (buf d : bytes) (vs : list value) : Prop := {
  st_d : blen d = 8 * ds;
  st_vs : blen vs = ps;
  st_len : 8 * (ds + ps) <= blen buf <= 2 ^ 32;
  st_mod : blen buf mod 8 = 0;
  st_data : sub buf 0 (8 * ds) = d;
  st_ptrs : forall k, 0 <= k < ps -> pslot buf (8 * (ds + k)) (v_ptr vs k)
}.

(** The writes that made a buffer: scalars in the data section, and the
    pointers [tr], in order, each with its content appended *)
Inductive shape : bytes -> list (Z * value) -> Prop :=
| shape_init : shape (zeros (8 * (ds + ps))) []
| shape_upd buf tr i b : shape buf tr -> 0 <= i -> i + blen b <= 8 * ds -> shape (upd buf i b) tr
| shape_ptr buf tr k v : shape buf tr -> 0 <= k < ps -> wfv v ->
    shape (upd buf (8 * (ds + k)) (le_enc 8 (ptr_word v ((blen buf - 8 * (ds + k) - 8) / 8))) ++ content v)
      (tr ++ [(k, v)]).

Definition root (buf : bytes) : obj :=
  {| o_seg := seg_of buf; o_off := 0; o_ptrs := 0 + ds * 8; o_ds := ds; o_ps := ps |}.

Lemma pslot_den buf k v : 0 <= k < ps -> 8 * (ds + ps) <= blen buf <= 2 ^ 32 -> pslot buf (8 * (ds + k)) v ->
  exists p, word_at (seg_of buf) (8 * (ds + k)) = Some p /\ den (seg_of buf) p (8 * (ds + k)) v.
Proof.
  intros Hk Hl (WF & off & W & Ho & Hb & A).
  assert (AW : at_ (seg_of buf) (8 * (ds + k)) (le_enc 8 (ptr_word v off))).
  { unfold at_, slen. rewrite blen_le_enc. change (Z.of_nat 8) with 8. cbn [seg_of sbuf]. repeat split; [lia|lia|exact W]. }
  apply at_word in AW. eexists. split; [exact AW|].
  eapply (enc_den v WF); [apply reads_signed| |reflexivity| | |exact A].
  - lia.
  - unfold slen. cbn [seg_of sbuf]. lia.
  - destruct A as (_ & A & _). unfold slen in A. cbn [seg_of sbuf] in A. lia.
Qed.

Lemma store_ptrs buf vs n k :
  (forall j, k <= j < k + Z.of_nat n -> pslot buf (8 * (ds + j)) (nth (Z.to_nat (j - k)) vs VNull)) ->
  0 <= k -> k + Z.of_nat n <= ps -> length vs = n -> 8 * (ds + ps) <= blen buf <= 2 ^ 32 ->
  den_ptrs (seg_of buf) (8 * (ds + k)) n vs.
Proof.
  revert vs k. induction n as [|n IH]; intros vs k H Hk Hn L Hl; (destruct vs as [|v vs]; [try discriminate L|try discriminate L]).
  - constructor. unfold slen. cbn [seg_of sbuf]. lia.
  - pose proof (H k ltac:(lia)) as H0. replace (Z.to_nat (k - k)) with 0%nat in H0 by lia. cbn [nth] in H0.
    destruct (pslot_den buf k v ltac:(lia) Hl H0) as (p & W & D).
    econstructor; [exact W|exact D|].
    replace (8 * (ds + k) + 8) with (8 * (ds + (k + 1))) by lia. apply IH; try lia.
    + intros j Hj. specialize (H j ltac:(lia)). replace (Z.to_nat (j - k)) with (S (Z.to_nat (j - (k + 1)))) in H by lia.
      exact H.
    + cbn [length] in L. lia.
Qed.

Lemma store_den buf d vs : store buf d vs -> obj_den (root buf) d vs.
Proof.
  intros [A B C M D E]. unfold obj_den, root. cbn [o_seg o_off o_ptrs o_ds o_ps].
  repeat split; try lia.
  - rewrite bytes_at_ok by (unfold slen; cbn [seg_of sbuf]; lia). cbn [seg_of sbuf]. rewrite D. reflexivity.
  - replace (0 + 8 * ds) with (8 * (ds + 0)) by lia. unfold blen in B. apply store_ptrs; try lia.
    intros j Hj. specialize (E j ltac:(lia)). unfold v_ptr in E. rewrite Z.sub_0_r. exact E.
Qed.

Lemma root_init buf : 8 * (ds + ps) <= blen buf -> init_from_buffer (seg_of buf) 0 ds ps = Ok (root buf).
Proof.
  intros H. unfold init_from_buffer. cbn [o_off o_ptrs seg_of sbuf].
  replace (0 + ds * 8 <=? blen buf) with true by (symmetry; lia).
  replace (0 + ds * 8 + ps * 8 <=? blen buf) with true by (symmetry; lia). reflexivity.
Qed.

(** The freshly allocated struct *)
Lemma store_init : store (zeros (8 * (ds + ps))) (zeros (8 * ds)) (repeat VNull (Z.to_nat ps)).
Proof.
  assert (L : blen (zeros (8 * (ds + ps))) = 8 * (ds + ps)) by (apply blen_zeros; lia).
  constructor.
  - apply blen_zeros. lia.
  - unfold blen. rewrite repeat_length. lia.
  - rewrite L. lia.
  - rewrite L. lia.
  - rewrite sub_zeros by lia. reflexivity.
  - intros k Hk. replace (v_ptr (repeat VNull (Z.to_nat ps)) k) with VNull.
    2:{ unfold v_ptr. symmetry. apply nth_repeat. }
    split; [exact (conj I I)|]. exists (ps - k - 1). cbn [ptr_word content].
    rewrite sub_zeros by lia. split; [reflexivity|]. split; [lia|]. split; [lia|].
    apply at_nil. unfold slen. cbn [seg_of sbuf]. rewrite L. lia.
Qed.

(** Writing in the data section *)
Lemma store_upd buf d vs i b : store buf d vs -> 0 <= i -> i + blen b <= 8 * ds ->
  store (upd buf i b) (upd d i b) vs.
Proof.
  intros [A B C M D E] Hi Hb. pose proof (blen_nonneg b).
  assert (L : blen (upd buf i b) = blen buf) by (apply blen_upd; lia).
  constructor; try (rewrite L); try assumption.
  - rewrite blen_upd; lia.
  - rewrite <- D. apply bytes_ext.
    + rewrite blen_sub, blen_upd by (rewrite ?L, ?blen_sub by lia; lia). rewrite blen_sub; lia.
    + intros k Hk. rewrite blen_sub in Hk by (rewrite ?L; lia).
      rewrite getb_sub by (rewrite ?L; lia). rewrite !getb_upd by (rewrite ?blen_sub by lia; lia).
      rewrite getb_sub by lia. replace (0 + k) with k by lia. reflexivity.
  - intros k Hk. destruct (E k Hk) as (WF & off & W & Ho & Hbs & A1 & A2 & A3).
    split; [exact WF|]. exists off. unfold slen in *. cbn [seg_of sbuf] in *. nonneg. split; [|split; [exact Ho|split; [exact Hbs|]]].
    + rewrite sub_upd_other; try lia. exact W.
    + unfold at_, slen. cbn [seg_of sbuf]. rewrite L. repeat split; try lia.
      rewrite sub_upd_other; try lia. exact A3.
Qed.

(** Writing a pointer *)
Definition set_ptr (vs : list value) (k : Z) (v : value) : list value :=
  firstn (Z.to_nat k) vs ++ v :: skipn (S (Z.to_nat k)) vs.

Lemma blen_set_ptr vs k v : 0 <= k < blen vs -> blen (set_ptr vs k v) = blen vs.
Proof.
  intros H. unfold set_ptr, blen in *. rewrite app_length, firstn_length. cbn [length]. rewrite skipn_length. lia.
Qed.

Lemma v_ptr_set vs k v j : 0 <= k < blen vs -> 0 <= j ->
  v_ptr (set_ptr vs k v) j = if j =? k then v else v_ptr vs j.
Proof.
  intros H Hj. unfold v_ptr, set_ptr, blen in *.
  assert (L : length (firstn (Z.to_nat k) vs) = Z.to_nat k) by (rewrite firstn_length; lia).
  destruct (Z.eqb_spec j k) as [->|N].
  - rewrite app_nth2 by lia. rewrite L. replace (Z.to_nat k - Z.to_nat k)%nat with 0%nat by lia. reflexivity.
  - assert (C : (Z.to_nat j < Z.to_nat k)%nat \/ (Z.to_nat k < Z.to_nat j)%nat) by lia. destruct C as [C|C].
    + rewrite app_nth1 by lia. rewrite <- (firstn_skipn (Z.to_nat k) vs) at 2. rewrite app_nth1 by lia. reflexivity.
    + rewrite app_nth2 by lia. rewrite L.
      destruct (Z.to_nat j - Z.to_nat k)%nat as [|m] eqn:E; [lia|]. cbn [nth].
      rewrite <- (firstn_skipn (S (Z.to_nat k)) vs) at 2. rewrite app_nth2; rewrite firstn_length; [f_equal; lia|lia].
Qed.

Lemma store_ptr buf d vs k v w : store buf d vs -> 0 <= k < ps -> wr_ok w v -> wfv v ->
  blen buf + blen (content v) <= 2 ^ 32 -> blen (content v) mod 8 = 0 ->
  exists buf', w buf (8 * (ds + k)) = Ok buf' /\ store buf' d (set_ptr vs k v) /\
    blen buf' = blen buf + blen (content v) /\ (forall tr, shape buf tr -> shape buf' (tr ++ [(k, v)])).
Proof.
  intros [A B C M D E] Hk W WF Hl Hm. pose proof (blen_nonneg (content v)).
  eexists. split; [apply W; lia|].
  set (u := upd buf _ _). set (c := content v) in *.
  assert (L8 : forall z, blen (le_enc 8 z) = 8) by (intros; rewrite blen_le_enc; reflexivity).
  assert (Lu : blen u = blen buf) by (apply blen_upd; rewrite ?L8; lia).
  assert (L : blen (u ++ c) = blen buf + blen c) by (rewrite blen_app; lia).
  split; [|split; [exact L|intros tr T; apply shape_ptr; assumption]].
  assert (Sub : forall p n, 0 <= p -> 0 <= n -> p + n <= blen buf ->
            (p + n <= 8 * (ds + k) \/ 8 * (ds + k) + 8 <= p) -> sub (u ++ c) p n = sub buf p n).
  { intros p n Hp Hn Hpn Hd. rewrite sub_app1 by lia. unfold u. apply sub_upd_other; rewrite ?L8; lia. }
  constructor; try (rewrite L); try assumption; try lia.
  - rewrite blen_set_ptr by lia. exact B.
  - rewrite Sub by lia. exact D.
  - intros j Hj. rewrite v_ptr_set by lia. destruct (Z.eqb_spec j k) as [->|N].
    + split; [exact WF|]. exists ((blen buf - 8 * (ds + k) - 8) / 8).
      split; [|split; [lia|split; [lia|]]].
      * rewrite sub_app1 by lia. unfold u.
        etransitivity; [|apply (sub_upd_same buf (8 * (ds + k)))].
        -- rewrite L8. reflexivity.
        -- lia.
        -- rewrite L8. lia.
      * replace (8 * (ds + k) + 8 + 8 * ((blen buf - 8 * (ds + k) - 8) / 8)) with (blen u) by lia.
        unfold at_, slen. cbn [seg_of sbuf]. fold c. repeat split; try lia.
        rewrite sub_app2 by lia. rewrite Z.sub_diag. apply sub_all.
    + destruct (E j Hj) as (WF' & off & W' & Ho & Hb & A1 & A2 & A3).
      unfold slen in *. cbn [seg_of sbuf] in *. pose proof (blen_nonneg (content (v_ptr vs j))).
      split; [exact WF'|]. exists off. split; [|split; [lia|split; [lia|]]].
      * rewrite Sub by lia. exact W'.
      * unfold at_, slen. cbn [seg_of sbuf]. repeat split; try lia. rewrite Sub by lia. exact A3.
Qed.
End Store.
