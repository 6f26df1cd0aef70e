(** Every object obtained from a loaded message, by any chain of getters, is
    word-aligned (whatever the bytes of the message). *)
From Verif Require Import Base Spec BaseFacts Ptr PtrFacts Segment SegmentFacts Builder Copy Endof Enc EncFacts
  EncDen Struct Message List Query StructFacts MessageFacts MsgFinal ObjFacts.
From Coq Require Import ZifyBool ZifyNat.
Ltac Zify.zify_post_hook ::= Z.div_mod_to_equations.

(** Objects and lists that a program can reach from [loads r]. Items are
    taken as structs only from lists whose wire element size is "composite"
    (7): on other lists StructItemType reads garbage sizes, see C28. *)
Inductive reach_obj (r : bytes) : obj -> Prop :=
| ro_loads : forall o, loads r = Ok (Some o) -> reach_obj r o
| ro_field : forall o k o', reach_obj r o -> o_read_struct o (8 * k) = Ok (Some o') -> reach_obj r o'
| ro_item : forall l i o, reach_list r l -> l_stag l = 7 -> l_getitem l i = Ok (IObj o) -> reach_obj r o
with reach_list (r : bytes) : lobj -> Prop :=
| rl_field : forall o k t l, reach_obj r o -> o_read_list o (8 * k) t = Ok (Some l) -> reach_list r l
| rl_item : forall l i l', reach_list r l -> l_getitem l i = Ok (IList l') -> reach_list r l'.

Scheme reach_obj_min := Minimality for reach_obj Sort Prop
  with reach_list_min := Minimality for reach_list Sort Prop.
Combined Scheme reach_ind from reach_obj_min, reach_list_min.

Definition seg_al (s : seg) : Prop :=
  slen s mod 8 = 0 /\ forall t, soffs s = Some t -> Forall (fun x => x mod 8 = 0) t.
Definition al (o : obj) : Prop := seg_al (o_seg o) /\ o_off o mod 8 = 0 /\ o_ptrs o mod 8 = 0.
Definition lal (l : lobj) : Prop :=
  seg_al (l_seg l) /\ l_off l mod 8 = 0 /\ l_ioff l mod 8 = 0 /\ (l_stag l = 7 -> l_len l mod 8 = 0).

Lemma init_inv s off ds ps o : init_from_buffer s off ds ps = Ok o ->
  o = {| o_seg := s; o_off := off; o_ptrs := off + ds * 8; o_ds := ds; o_ps := ps |}.
Proof.
  unfold init_from_buffer. intros H. apply bind_ok in H. destruct H as (? & _ & H).
  apply bind_ok in H. destruct H as (? & _ & H). apply ok_inj in H. auto.
Qed.

Lemma offsets_get_al t k x : Forall (fun x => x mod 8 = 0) t -> offsets_get t k = Ok x -> x mod 8 = 0.
Proof.
  intros F. unfold offsets_get. destruct (nth_error t (Z.to_nat k)) as [y|] eqn:N; [|discriminate].
  intros H. apply ok_inj in H. subst. rewrite Forall_forall in F. apply F. apply (nth_error_In _ _ N).
Qed.

Lemma far_al s ofs pos p : seg_al s -> read_far_ptr s ofs = Ok (pos, p) -> pos mod 8 = 0.
Proof.
  intros [_ A] H. unfold read_far_ptr in H. destruct (soffs s) as [t|]; [|discriminate].
  specialize (A t eq_refl).
  apply bind_ok in H. destruct H as (q & _ & H). apply bind_ok in H. destruct H as (st & G & H).
  pose proof (offsets_get_al _ _ _ A G).
  destruct (far_landing_pad q =? 0).
  - apply bind_ok in H. destruct H as (x & _ & H). apply ok_inj in H. injection H as <- _. lia.
  - repeat (apply bind_ok in H; destruct H as (? & ? & H)). apply ok_inj in H. injection H as <- _.
    match goal with H : offsets_get t _ = Ok ?y |- (?y + _ - _) mod 8 = 0 => pose proof (offsets_get_al _ _ _ A H) end. lia.
Qed.

Lemma resolve_al o k pos p : al o -> o_resolve o (8 * k) = Ok (pos, p) -> p <> 0 -> pos mod 8 = 0.
Proof.
  intros (S & A1 & A2) H N. unfold o_resolve in H. apply bind_ok in H. destruct H as (q & _ & H).
  destruct (kind q =? FAR).
  - unfold o_read_far_ptr in H. destruct (_ <=? _).
    + apply ok_inj in H. apply (f_equal snd) in H. cbn [snd] in H. congruence.
    + apply (far_al _ _ _ _ S H).
  - apply ok_inj in H. apply (f_equal fst) in H. cbn [fst] in H. lia.
Qed.

Lemma deref_al p pos : pos mod 8 = 0 -> deref p pos mod 8 = 0.
Proof. intros. rewrite deref_spec. unfold p_target. lia. Qed.

Lemma list_init_al s off tag n t l :
  seg_al s -> off mod 8 = 0 -> list_init s off tag n t = Ok l -> lal l.
Proof.
  intros S A H. unfold list_init, LIST_SIZE_COMPOSITE in H. destruct (Z.eqb_spec tag 7).
  - apply bind_ok in H. destruct H as (q & _ & H). apply ok_inj in H. subst l.
    split; [exact S|]. cbn [l_off l_ioff l_len l_stag]. split; [lia|]. split; [reflexivity|]. lia.
  - apply ok_inj in H. subst l. split; [exact S|]. cbn [l_off l_ioff l_len l_stag].
    split; [lia|]. split; [reflexivity|]. lia.
Qed.

Lemma list_init_seg s off tag n t l : list_init s off tag n t = Ok l -> l_seg l = s.
Proof.
  unfold list_init. destruct (tag =? LIST_SIZE_COMPOSITE); intros H.
  - apply bind_ok in H. destruct H as (q & _ & H). apply ok_inj in H. subst l. reflexivity.
  - apply ok_inj in H. subst l. reflexivity.
Qed.

Lemma prefix_al segs k : Forall (fun b : bytes => blen b mod 8 = 0) segs -> prefix_sum segs k mod 8 = 0.
Proof.
  intros F. unfold prefix_sum. revert k. induction F as [|b segs Hb F IH]; intros k.
  - rewrite firstn_nil. reflexivity.
  - destruct k as [|k]; [reflexivity|]. cbn [firstn concat]. rewrite blen_app. specialize (IH k). lia.
Qed.

Lemma mem_al segs : Forall (fun b : bytes => blen b mod 8 = 0) segs -> seg_al (mem_of segs).
Proof.
  intros F. assert (T : blen (concat segs) mod 8 = 0).
  { pose proof (prefix_al segs (length segs) F) as P. unfold prefix_sum in P. rewrite firstn_all in P. exact P. }
  unfold mem_of. destruct segs as [|b [|b2 segs]].
  - split; [exact T|]. intros t H. injection H as <-. constructor.
  - split; [inversion F; assumption|]. discriminate.
  - split; [exact T|]. intros t H. injection H as <-.
    rewrite Forall_forall. intros x Hx.
    change (In x (map (prefix_sum (b :: b2 :: segs)) (seq 0 (length (b :: b2 :: segs))))) in Hx.
    apply in_map_iff in Hx. destruct Hx as (k & <- & _). apply prefix_al. exact F.
Qed.

Lemma mem_len segs : slen (mem_of segs) = blen (concat segs).
Proof. destruct segs as [|b [|b2 segs]]; try reflexivity. cbn. unfold slen. cbn. rewrite app_nil_r. reflexivity. Qed.

Lemma struct_al o k o' : al o -> o_read_struct o (8 * k) = Ok (Some o') -> al o' /\ o_seg o' = o_seg o.
Proof.
  intros A H. unfold o_read_struct in H. apply bind_ok in H. destruct H as ((pos & p) & R & H).
  destruct (Z.eqb_spec p 0); [discriminate|]. apply bind_ok in H. destruct H as (_ & _ & H).
  apply bind_ok in H. destruct H as (x & I & H). apply ok_inj in H. injection H as ->.
  unfold init_from_pointer in I. apply bind_ok in I. destruct I as (_ & _ & I). apply init_inv in I. subst o'.
  pose proof (resolve_al _ _ _ _ A R n) as P. apply (deref_al p) in P. destruct A as (S & _).
  split; [|reflexivity]. split; [exact S|]. cbn [o_off o_ptrs]. lia.
Qed.

Lemma reach_al r : blen r <= 2 ^ 32 ->
  (forall o, reach_obj r o -> al o /\ slen (o_seg o) <= 2 ^ 32) /\
  (forall l, reach_list r l -> lal l /\ slen (l_seg l) <= 2 ^ 32).
Proof.
  intros HR. apply reach_ind.
  - intros o L. destruct (loads_sound _ _ L) as (segs & pad & F & P & E & I).
    unfold open_segments in I. apply bind_ok in I. destruct I as (m & I1 & I2). apply init_inv in I1. subst m.
    assert (FA : Forall (fun b : bytes => blen b mod 8 = 0) segs).
    { destruct F as (_ & _ & F). rewrite Forall_forall in *. intros x Hx. apply F. exact Hx. }
    apply (struct_al _ 0) in I2.
    + destruct I2 as [I2 I3]. split; [exact I2|]. rewrite I3. cbn [o_seg]. rewrite mem_len.
      subst r. unfold frame_with in HR. rewrite !blen_app in HR.
      pose proof (blen_nonneg (le_enc 4 (blen segs - 1))). pose proof (blen_nonneg pad).
      pose proof (blen_nonneg (concat (map (fun b : bytes => le_enc 4 (blen b / 8)) segs))).
      change (blen (concat (map (fun b : bytes => le_enc 4 (blen b / 8)) segs))) with
        (blen (concat (map (fun b : list byte => le_enc 4 (blen b / 8)) segs))) in *. lia.
    + split; [apply mem_al; exact FA|]. split; reflexivity.
  - intros o k o' _ [IH1 IH2] H. destruct (struct_al _ _ _ IH1 H) as [A E]. rewrite E. auto.
  - intros l i o _ [(S & A1 & A2 & A3) IH2] ST H. unfold l_getitem in H.
    destruct (_ && _); [|discriminate]. set (j := if i <? 0 then i + l_count l else i) in *. unfold read_item in H.
    destruct (l_it l) as [| |f|dbl|ds0 ps0|add|inner] eqn:T.
    1: discriminate.
    1-3: apply bind_ok in H; destruct H as (? & _ & H); discriminate.
    2: repeat (apply bind_ok in H; destruct H as (? & ? & H)); try discriminate;
       destruct x0; apply bind_ok in H; destruct H as (? & ? & H); discriminate.
    2: repeat (apply bind_ok in H; destruct H as (? & ? & H)); try discriminate;
       destruct x0; apply bind_ok in H; destruct H as (? & ? & H); discriminate.
    apply bind_ok in H. destruct H as (x & I & H). apply ok_inj in H. injection H as ->.
    apply init_inv in I. subst o. split; [|exact IH2]. split; [exact S|]. cbn [o_off o_ptrs].
    specialize (A3 ST). unfold offset_for_item.
    assert (j * l_len l mod 8 = 0) by (rewrite Z.mul_mod, A3, Z.mul_0_r by lia; reflexivity).
    split; lia.
  - intros o k t l _ [A IH2] H. unfold o_read_list in H. apply bind_ok in H. destruct H as ((pos & p) & R & H).
    destruct (Z.eqb_spec p 0); [discriminate|]. apply bind_ok in H. destruct H as (_ & _ & H).
    apply bind_ok in H. destruct H as (x & I & H). apply ok_inj in H. injection H as ->.
    pose proof (resolve_al _ _ _ _ A R n) as P. apply (deref_al p) in P. destruct A as (S & _).
    split; [apply (list_init_al _ _ _ _ _ _ S P I)|].
    rewrite (list_init_seg _ _ _ _ _ _ I). exact IH2.
  - intros l i l' _ [(S & A1 & A2 & A3) IH2] H. unfold l_getitem in H.
    destruct (_ && _); [|discriminate]. set (j := if i <? 0 then i + l_count l else i) in *. unfold read_item in H.
    destruct (l_it l) as [| |f|dbl|ds0 ps0|add|inner] eqn:T.
    1: discriminate.
    1-4: apply bind_ok in H; destruct H as (? & _ & H); discriminate.
    1: repeat (apply bind_ok in H; destruct H as (? & ? & H)); try discriminate;
       destruct x0; apply bind_ok in H; destruct H as (? & ? & H); discriminate.
    apply bind_ok in H. destruct H as (q & _ & H). apply bind_ok in H. destruct H as ((pos & p) & Q & H).
    apply bind_ok in H. destruct H as (x & I & H). apply ok_inj in H. injection H as ->.
    assert (P : pos mod 8 = 0).
    { destruct (kind q =? FAR); [apply (far_al _ _ _ _ S Q)|]. apply ok_inj in Q. apply (f_equal fst) in Q. cbn [fst] in Q. lia. }
    apply (deref_al p) in P. split; [apply (list_init_al _ _ _ _ _ _ S P I)|].
    rewrite (list_init_seg _ _ _ _ _ _ I). exact IH2.
Qed.

Lemma reach_aligned r o : blen r <= 2 ^ 32 -> reach_obj r o -> aligned o.
Proof.
  intros H R. destruct (proj1 (reach_al r H) o R) as [((S & _) & A & _) L].
  split; [exact A|]. split; [exact S|exact L].
Qed.
