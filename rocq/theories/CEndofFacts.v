(** endof.py compiled against endof.py interpreted; dumps(). *)
From Verif Require Import Base BaseFacts Spec Ptr PtrFacts Segment SegmentFacts Builder Copy Endof Struct List Message
  Enc EncFacts CRead CReadSpec CReadFacts BuilderC CLoad.
From Coq Require Import ZifyBool.
Ltac Zify.zify_post_hook ::= Z.div_mod_to_equations.

Definition whole (e : Z) : Prop := e = -1 \/ e mod 8 = 0.
Definition near (i : Z) : Prop := - 2 ^ 61 <= i <= 2 ^ 61.

Section step.
  Variable rec crec : seg -> Z -> Z -> res Z.
  Variable s : seg.
  Hypothesis L : blen (sbuf s) < 2 ^ 60.
  Hypothesis Hrec : forall p i e, 0 <= i -> i + 8 <= blen (sbuf s) -> i mod 8 = 0 -> rec s p i = Ok e ->
    crec s p i = Ok e /\ whole e.

  Lemma ptrs_agree n : forall po ce e, near po -> po mod 8 = 0 -> whole ce ->
    endof_ptrs rec n s po ce = Ok e -> c_endof_ptrs_ crec n s po ce = Ok e /\ whole e /\
    (n <> O -> 0 <= po /\ po + 8 <= blen (sbuf s)).
  Proof.
    induction n as [|n IH]; intros po ce e Hn Ha Hc; cbn [endof_ptrs c_endof_ptrs_].
    - intros E. apply ok_inj in E. subst. split; [reflexivity|]. split; [assumption|congruence].
    - unfold near in Hn. destruct (c_read_ptr_eq s po ltac:(lia) ltac:(lia)) as [(p & R1 & R2 & B)|(R1 & R2)];
        rewrite R1; [rewrite R2|discriminate]. cbn [bind]. rewrite C_deref_eq by lia. rewrite c_add_small by lia.
      destruct (p =? 0).
      + intros E. destruct (IH (po + 8) ce e) as (A1 & A2 & _); unfold near; try lia; try assumption; auto.
      + destruct (negb _).
        * intros E. apply ok_inj in E. subst. split; [reflexivity|]. split; [left; reflexivity|auto].
        * destruct (rec s p po) as [ce'|] eqn:RC; [|discriminate]. cbn [bind].
          destruct (Hrec p po ce') as (-> & W); try lia; try assumption. cbn [bind]. intros E.
          destruct (IH (po + 8) ce' e) as (A1 & A2 & _); unfold near; try lia; try assumption; auto.
  Qed.

  Lemma cptrs_agree n po ce e : near po -> po mod 8 = 0 -> whole ce ->
    endof_ptrs rec n s po ce = Ok e -> c_endof_ptrs crec n s po ce = Ok e /\ whole e /\
    (n <> O -> 0 <= po /\ po + 8 <= blen (sbuf s)).
  Proof.
    intros H1 H2 H3 E. destruct (ptrs_agree n po ce e H1 H2 H3 E) as (A & B). split; [|exact B].
    unfold c_endof_ptrs. rewrite A. reflexivity.
  Qed.

  Lemma items_agree n : forall io is ps ce e, near io -> io mod 8 = 0 -> is mod 8 = 0 -> 0 <= is < 2 ^ 20 -> 0 < ps -> whole ce ->
    endof_items rec n s io is ps ce = Ok e -> c_endof_items crec n s io is ps ce = Ok e /\ whole e.
  Proof.
    induction n as [|n IH]; intros io is ps ce e Hn Ha Hi Hr Hp Hc; cbn [endof_items c_endof_items].
    - intros E. apply ok_inj in E. subst. auto.
    - destruct (endof_ptrs rec (Z.to_nat ps) s io ce) as [e1|] eqn:EP; [|discriminate].
      destruct (cptrs_agree _ _ _ _ Hn Ha Hc EP) as (-> & W & B). specialize (B ltac:(lia)). cbn [bind].
      destruct (e1 =? -1).
      + intros E. apply ok_inj in E. subst. split; [reflexivity|left; reflexivity].
      + rewrite c_add_small by lia. apply IH; unfold near; try lia; assumption.
  Qed.
End step.

Lemma endof_agree s : blen (sbuf s) < 2 ^ 60 -> forall fuel p ofs e, - 2 ^ 42 <= ofs <= 2 ^ 60 -> ofs mod 8 = 0 ->
  endof fuel s p ofs = Ok e -> c_endof fuel s p ofs = Ok e /\ whole e.
Proof.
  intros L. induction fuel as [|fuel IH]; intros p ofs e Ho Ha; [discriminate|].
  assert (HR : forall p i e, 0 <= i -> i + 8 <= blen (sbuf s) -> i mod 8 = 0 -> endof fuel s p i = Ok e ->
    c_endof fuel s p i = Ok e /\ whole e).
  { intros q i e0 I1 I2 I3. apply IH; lia. }
  cbn [endof c_endof]. macros p. rewrite C_deref_eq by lia. pose proof (off_r p) as OR.
  assert (DA : deref p ofs mod 8 = 0) by (unfold deref; rewrite Z.mod_add by lia; exact Ha).
  assert (DR : - 2 ^ 43 <= deref p ofs <= 2 ^ 60 + 2 ^ 33) by (unfold deref; lia).
  set (i := deref p ofs) in *. clearbody i.
  assert (EX : forall r e, r = Ok e /\ whole e -> except_ (-2) r = Ok e /\ whole e).
  { intros r e0 (-> & W). unfold except_. destruct (Z.eqb_spec e0 (-2)) as [->|]; [destruct W as [W|W]; [discriminate|vm_compute in W; discriminate]|auto]. }
  intros E. apply EX. revert E.
  pose proof (dsize_r p) as Rd. pose proof (psize_r p) as Rp. pose proof (count_r p) as Rc. pose proof (tag_r p) as Rt.
  destruct (kind p =? STRUCT).
  - unfold endof_struct, c_endof_struct. rewrite !c_mul_small by lia. rewrite (c_add_small i) by lia. rewrite c_add_small by lia.
    intros E. apply (cptrs_agree _ _ s L HR) in E; [destruct E as (-> & W & _); auto|unfold near; lia|lia|right; lia].
  - destruct (kind p =? LIST).
    2: { destruct (kind p =? FAR); [|discriminate]. intros E. apply ok_inj in E. subst. split; [reflexivity|left; reflexivity]. }
    destruct (list_size_tag p =? LIST_SIZE_COMPOSITE).
    + destruct (c_read_ptr_eq s i ltac:(lia) ltac:(lia)) as [(t & R1 & R2 & B)|(R1 & R2)];
        rewrite R1; [rewrite R2|discriminate]. cbn [bind]. macros t.
      pose proof (dsize_r t) as Td. pose proof (psize_r t) as Tp. pose proof (off_r t) as To.
      unfold endof_list_composite, c_endof_list_composite.
      rewrite (c_add_small (struct_data_size t)) by lia.
      rewrite (c_mul_small (struct_data_size t + _)) by lia. rewrite (c_mul_small _ (offset t)) by nia.
      rewrite (c_add_small i) by lia. rewrite (c_add_small (i + 8)) by nia.
      destruct (Z.eqb_spec (struct_ptrs_size t) 0) as [E0|E0].
      * intros E. apply ok_inj in E. subst. split; [reflexivity|right].
        rewrite <- Z.mul_assoc, (Z.mul_comm 8), Z.mul_assoc. rewrite Z.mod_add by lia. lia.
      * rewrite (c_mul_small (struct_data_size t)) by lia. rewrite c_add_small by lia. intros E.
        apply (items_agree _ _ s L HR) in E; [destruct E as (-> & W); auto|unfold near; lia|lia|lia|lia|lia|].
        right. rewrite <- Z.mul_assoc, (Z.mul_comm 8), Z.mul_assoc. rewrite Z.mod_add by lia. lia.
    + destruct (list_size_tag p =? LIST_SIZE_PTR).
      * unfold endof_list_ptr, c_endof_list_ptr. rewrite c_mul_small by lia. rewrite c_add_small by lia. intros E.
        apply (cptrs_agree _ _ s L HR) in E; [destruct E as (-> & W & _); auto|unfold near; lia|lia|right; lia].
      * destruct (list_size_tag p =? LIST_SIZE_BIT).
        -- unfold endof_list_bit, c_endof_list_bit. rewrite (C_round_up_eq (list_item_count p)) by lia.
           assert (0 <= round_up_to_word (list_item_count p) <= 2 ^ 30) by (rewrite round_up_spec; lia).
           rewrite c_add_small by lia. rewrite C_round_up_eq by lia. intros E. apply ok_inj in E. subst.
           split; [reflexivity|right]. rewrite round_up_spec. lia.
        -- unfold endof_list_primitive, c_endof_list_primitive. rewrite item_len_eq by exact Rt.
           pose proof (item_len_r _ Rt). rewrite c_mul_small by nia. rewrite c_add_small by nia.
           rewrite C_round_up_eq by nia. intros E. apply ok_inj in E. subst. split; [reflexivity|right]. rewrite round_up_spec. lia.
Qed.

(** ** _get_end() *)
Lemma fields_wrap p : kind (wrap64 p) = kind p /\ offset (wrap64 p) = offset p /\
  struct_data_size (wrap64 p) = struct_data_size p /\ struct_ptrs_size (wrap64 p) = struct_ptrs_size p /\
  list_size_tag (wrap64 p) = list_size_tag p /\ list_item_count (wrap64 p) = list_item_count p.
Proof.
  assert (exists k, wrap64 p = p + k * 2 ^ 64) as (k & ->).
  { pose proof (wrap64_mod p) as W. exists (wrap64 p / 2 ^ 64 - p / 2 ^ 64).
    pose proof (Z.div_mod (wrap64 p) (2 ^ 64) ltac:(lia)). pose proof (Z.div_mod p (2 ^ 64) ltac:(lia)). lia. }
  rewrite !kind_spec, !offset_spec, !data_size_spec, !ptrs_size_spec, !size_tag_spec, !item_count_spec.
  unfold p_kind, p_off, p_dsize, p_psize, p_ltag, p_lcount.
  replace (p + k * 2 ^ 64) with (p + (k * 2 ^ 62) * 4) at 1 by lia. rewrite Z.mod_add by lia.
  replace (p + k * 2 ^ 64) with (p + (k * 2 ^ 62) * 4) at 1 by lia. rewrite Z.div_add by lia.
  replace (p + k * 2 ^ 64) with (p + (k * 2 ^ 32) * 2 ^ 32) at 1 by lia. rewrite Z.div_add by lia.
  replace (p + k * 2 ^ 64) with (p + (k * 2 ^ 16) * 2 ^ 48) at 1 by lia. rewrite Z.div_add by lia.
  replace (p + k * 2 ^ 64) with (p + (k * 2 ^ 32) * 2 ^ 32) at 1 by lia. rewrite Z.div_add by lia.
  replace (p + k * 2 ^ 64) with (p + (k * 2 ^ 29) * 2 ^ 35) at 1 by lia. rewrite Z.div_add by lia.
  repeat split.
  - f_equal. replace (k * 2 ^ 62) with (k * 2 ^ 32 * 2 ^ 30) by lia. apply Z.mod_add. lia.
  - replace (k * 2 ^ 32) with (k * 2 ^ 16 * 2 ^ 16) by lia. apply Z.mod_add. lia.
  - apply Z.mod_add. lia.
  - replace (k * 2 ^ 32) with (k * 2 ^ 29 * 8) by lia. apply Z.mod_add. lia.
  - apply Z.mod_add. lia.
Qed.

Lemma endof_wrap fuel s p ofs : endof fuel s (wrap64 p) ofs = endof fuel s p ofs.
Proof.
  destruct fuel as [|fuel]; [reflexivity|]. cbn [endof].
  destruct (fields_wrap p) as (F1 & F2 & F3 & F4 & F5 & F6). unfold deref. rewrite F1, F2, F3, F4, F5, F6. reflexivity.
Qed.

Lemma get_end_agree fuel o e : long_obj o -> o_off o mod 8 = 0 ->
  o_get_end fuel o = Ok e -> c_o_get_end fuel o = Ok e.
Proof.
  intros (L & OR & PO & DR & PR) A. pose proof (proj1 L) as B. unfold o_get_end, c_o_get_end.
  rewrite C_new_struct_signed, c_add_small by lia. change (o_off o + -8) with (o_off o - 8).
  rewrite <- endof_wrap. intros E. apply (endof_agree (o_seg o) B) in E; [|lia|lia]. destruct E as (-> & _). reflexivity.
Qed.

Lemma is_compact_agree fuel o b : long_obj o -> o_off o mod 8 = 0 ->
  o_is_compact fuel o = Ok b -> c_o_is_compact fuel o = Ok b.
Proof.
  intros L A. unfold o_is_compact, c_o_is_compact. destruct (o_get_end fuel o) as [e|] eqn:E; [|discriminate].
  rewrite (get_end_agree fuel o e L A E). auto.
Qed.

(** ** dumps() *)
Lemma dump_message_agree s p start e m : dump_message s p start e = Ok m -> c_dump_message s (wrap64 p) start e = Ok m.
Proof.
  unfold dump_message, c_dump_message. destruct (_ || _ || _) eqn:B; [discriminate|].
  destruct (negb _) eqn:F; [discriminate|]. intros E. apply ok_inj in E. subst m.
  unfold in_fmtb in F. cbn [fsigned fmin fmax fsize] in F. unfold fmin, fmax in F. cbn [fsigned fsize] in F.
  rewrite wrap64_small by lia. rewrite py_slice_in by lia. reflexivity.
Qed.
