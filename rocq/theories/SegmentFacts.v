(** Reads: bounds, agreement with the specification, far pointers. *)
From Verif Require Import Base BaseFacts Spec Ptr PtrFacts Segment Enc EncFacts.
From Coq Require Import ZifyBool.

Ltac Zify.zify_post_hook ::= Z.div_mod_to_equations.

Lemma read_primitive_in s i f :
  0 <= i -> i + fsize f <= slen s ->
  read_primitive s i f = Ok (fdec f (sub (sbuf s) i (fsize f))).
Proof.
  intros Hi Hb. unfold read_primitive, slen in *.
  destruct (_ || _) eqn:E; [lia|]. apply unpack_from_in; lia.
Qed.

Lemma read_primitive_out s i f :
  ~ (0 <= i /\ i + fsize f <= slen s) -> read_primitive s i f = Err IndexError.
Proof.
  intros H. unfold read_primitive, slen in *.
  destruct (_ || _) eqn:E; [reflexivity|lia].
Qed.

Lemma read_primitive_ok s i f z :
  read_primitive s i f = Ok z ->
  0 <= i /\ i + fsize f <= slen s /\ z = fdec f (sub (sbuf s) i (fsize f)).
Proof.
  intros H.
  destruct (Z_le_dec 0 i), (Z_le_dec (i + fsize f) (slen s));
    try (rewrite read_primitive_out in H by lia; discriminate).
  rewrite read_primitive_in in H by lia. injection H as <-. auto.
Qed.

Lemma read_ptr_word s i p : read_ptr s i = Ok p <-> word_at s i = Some p.
Proof.
  unfold read_ptr. split; intros H.
  - apply read_primitive_ok in H. cbn [fsize] in H. destruct H as (H1 & H2 & ->).
    apply word_at_ok; lia.
  - apply word_at_some in H. destruct H as (H1 & H2 & ->).
    apply read_primitive_in; cbn [fsize]; lia.
Qed.

Lemma read_ptr_err s i : word_at s i = None -> read_ptr s i = Err IndexError.
Proof.
  intros H. apply read_primitive_out. cbn [fsize]. intros [H1 H2].
  rewrite word_at_ok in H by assumption. discriminate.
Qed.

Lemma read_ptr_dec s i :
  (exists p, read_ptr s i = Ok p /\ word_at s i = Some p) \/
  (read_ptr s i = Err IndexError /\ word_at s i = None).
Proof.
  destruct (word_at s i) as [p|] eqn:E.
  - left. exists p. split; [apply read_ptr_word; exact E|reflexivity].
  - right. split; [apply read_ptr_err; exact E|reflexivity].
Qed.

Lemma offsets_get_ok s t k x :
  soffs s = Some t -> 0 <= k -> (offsets_get t k = Ok x <-> seg_start s k = Some x).
Proof.
  intros Hs Hk. unfold offsets_get, seg_start. rewrite Hs.
  destruct (0 <=? k) eqn:?; [|lia].
  destruct (nth_error t (Z.to_nat k)); split; congruence.
Qed.

Lemma py_assert_ok c u : py_assert c = Ok u <-> c = true.
Proof. unfold py_assert. destruct c, u; split; congruence. Qed.

(** The code follows far pointers exactly as the specification says. *)
Lemma read_far_ptr_spec s pos p pos' p' :
  word_at s pos = Some p ->
  (read_far_ptr s pos = Ok (pos', p') <-> far_to s p pos' p').
Proof.
  intros Hp. unfold read_far_ptr.
  assert (Hrp : read_ptr s pos = Ok p) by (apply read_ptr_word; exact Hp).
  pose proof (p_farseg_range p) as Hr. pose proof (p_farpad_range p) as Hpad.
  split.
  - destruct (soffs s) as [t|] eqn:Hs; [|discriminate].
    rewrite Hrp. cbn [bind]. rewrite far_target_spec, far_offset_spec, far_pad_spec.
    intros H. apply bind_ok in H. destruct H as (st & H1 & H).
    rewrite (offsets_get_ok s t _ _ Hs) in H1 by lia.
    rewrite (Z.mul_comm _ 8) in H.
    destruct (p_farpad p =? 0) eqn:E.
    + apply bind_ok in H. destruct H as (q & H2 & H). injection H as <- <-.
      apply read_ptr_word in H2. apply far_one; auto; lia.
    + apply bind_ok in H. destruct H as (q & H2 & H).
      apply bind_ok in H. destruct H as (tag & H3 & H).
      apply bind_ok in H. destruct H as (? & H4 & H).
      apply bind_ok in H. destruct H as (? & H5 & H).
      apply bind_ok in H. destruct H as (? & H6 & H).
      apply bind_ok in H. destruct H as (st2 & H7 & H). injection H as <- <-.
      apply py_assert_ok in H4, H5, H6.
      rewrite kind_spec in H4. rewrite far_pad_spec in H5. rewrite offset_spec in H6.
      rewrite far_target_spec, far_offset_spec in *.
      pose proof (p_farseg_range q).
      rewrite (offsets_get_ok s t _ _ Hs) in H7 by lia.
      apply read_ptr_word in H2. apply read_ptr_word in H3.
      rewrite (Z.mul_comm (p_faroff q) 8).
      unfold FAR in H4.
      apply far_two with (st := st); auto; lia.
  - intros H. destruct H as [st q Hp0 Hst Hw|st q tag st2 Hp1 Hst Hw Hw2 Hk Hpd Ho Hst2].
    + destruct (soffs s) as [t|] eqn:Hs; [|unfold seg_start in Hst; rewrite Hs in Hst; discriminate].
      rewrite Hrp. cbn [bind]. rewrite far_target_spec, far_offset_spec, far_pad_spec.
      assert (Eg : offsets_get t (p_farseg p) = Ok st)
        by (apply (offsets_get_ok s t _ _ Hs); [lia|exact Hst]).
      rewrite Eg. cbn [bind]. rewrite Hp0. cbn [Z.eqb].
      rewrite (Z.mul_comm _ 8).
      apply read_ptr_word in Hw. rewrite Hw. reflexivity.
    + destruct (soffs s) as [t|] eqn:Hs; [|unfold seg_start in Hst; rewrite Hs in Hst; discriminate].
      rewrite Hrp. cbn [bind]. rewrite far_target_spec, far_offset_spec, far_pad_spec.
      assert (Eg : offsets_get t (p_farseg p) = Ok st)
        by (apply (offsets_get_ok s t _ _ Hs); [lia|exact Hst]).
      rewrite Eg. cbn [bind]. rewrite Hp1. cbn [Z.eqb].
      rewrite (Z.mul_comm _ 8).
      apply read_ptr_word in Hw. rewrite Hw. cbn [bind].
      apply read_ptr_word in Hw2. rewrite Hw2. cbn [bind].
      rewrite kind_spec, far_pad_spec, offset_spec, Hk, Hpd, Ho. cbn [Z.eqb bind py_assert FAR].
      rewrite far_target_spec, far_offset_spec.
      pose proof (p_farseg_range q).
      assert (Eg2 : offsets_get t (p_farseg q) = Ok st2)
        by (apply (offsets_get_ok s t _ _ Hs); [lia|exact Hst2]).
      cbn. rewrite Eg2. cbn [bind]. rewrite (Z.mul_comm _ 8). reflexivity.
Qed.

Lemma read_far_ptr_single s pos : soffs s = None -> read_far_ptr s pos = Err ValueError.
Proof. intros H. unfold read_far_ptr. rewrite H. reflexivity. Qed.

Lemma far_to_fun s p a b c d : far_to s p a b -> far_to s p c d -> a = c /\ b = d.
Proof.
  intros H1 H2.
  destruct H1; destruct H2;
  repeat match goal with
  | H1 : ?x = Some ?a, H2 : ?x = Some ?b |- _ =>
      rewrite H1 in H2; injection H2 as <-
  end; try lia; auto.
Qed.
