(** endof always answers on well-formed objects, and its answer is a word
    boundary inside the buffer. *)
From Verif Require Import Base Spec BaseFacts Ptr PtrFacts Segment SegmentFacts Endof Enc EncFacts EncDen CopyFacts EndofFacts.
From Coq Require Import ZifyBool ZifyNat.
Ltac Zify.zify_post_hook ::= Z.div_mod_to_equations.

Definition eend (s : seg) (lo e : Z) : Prop := e = -1 \/ (lo <= e /\ 0 <= e <= slen s /\ e mod 8 = 0).

Lemma endof_total s : slen s mod 8 = 0 ->
  (forall p pos v, den s p pos v -> p <> 0 -> pos mod 8 = 0 ->
     forall fuel, (vdepth v <= fuel)%nat -> exists e, endof fuel s p pos = Ok e /\ eend s (p_target p pos) e) /\
  (forall pos n vs, den_ptrs s pos n vs -> pos mod 8 = 0 ->
     forall fuel lo cur, (list_max (map vdepth vs) <= fuel)%nat -> eend s lo cur ->
     exists e, endof_ptrs (endof fuel) n s pos cur = Ok e /\ eend s lo e) /\
  (forall pos ds ps n items, den_items s pos ds ps n items -> 0 <= ds -> 0 <= ps -> pos mod 8 = 0 ->
     forall fuel lo cur, (list_max (map (fun it => list_max (map vdepth (snd it))) items) <= fuel)%nat ->
     eend s lo cur ->
     exists e, endof_items (endof fuel) n s (pos + 8 * ds) ((ds + ps) * 8) ps cur = Ok e /\ eend s lo e).
Proof.
  intros Hs. apply den_all_ind.
  - intros; congruence.
  - intros p pos data vs Hp Hk Hb Hd IH _ Ha fuel Hf. cbn [vdepth] in Hf.
    destruct fuel as [|fuel]; [lia|]. cbn [endof].
    rewrite kind_spec, Hk. cbn [Z.eqb STRUCT].
    rewrite deref_spec, data_size_spec, ptrs_size_spec. unfold endof_struct.
    pose proof (p_dsize_range p). pose proof (p_psize_range p).
    pose proof (den_ptrs_bounds _ _ _ _ Hd) as (P1 & P2).
    replace (p_target p pos + p_dsize p * 8) with (p_target p pos + 8 * p_dsize p) by lia.
    apply IH; [unfold p_target; lia|lia|].
    right. unfold p_target in *. lia.
  - intros p pos body Hk Ht Hb _ Ha fuel Hf. cbn [vdepth] in Hf.
    destruct fuel as [|fuel]; [lia|]. cbn [endof].
    rewrite kind_spec, Hk. cbn [Z.eqb Pos.eqb STRUCT LIST].
    rewrite deref_spec, size_tag_spec, item_count_spec.
    pose proof (p_ltag_range p) as Hr. pose proof (p_lcount_range p).
    apply bytes_at_some in Hb. destruct Hb as (B1 & B2 & B3 & _).
    assert (Hal : p_target p pos mod 8 = 0) by (unfold p_target; lia).
    unfold LIST_SIZE_COMPOSITE, LIST_SIZE_PTR, LIST_SIZE_BIT.
    replace (p_ltag p =? 7) with false by (symmetry; lia).
    replace (p_ltag p =? 6) with false by (symmetry; lia).
    destruct (Z.eqb_spec (p_ltag p) 1) as [T|T]; (eexists; split; [reflexivity|]); right.
    + unfold endof_list_bit. rewrite !round_up_spec.
      rewrite T in B3, B2. unfold list_bytes in B3, B2. cbn [Z.eqb Pos.eqb] in B3, B2. lia.
    + unfold endof_list_primitive. rewrite round_up_spec.
      assert (E : list_item_length (p_ltag p) * p_lcount p = list_bytes (p_ltag p) (p_lcount p)).
      { assert (C : p_ltag p = 0 \/ p_ltag p = 2 \/ p_ltag p = 3 \/ p_ltag p = 4 \/ p_ltag p = 5) by lia.
        assert (L0 : list_item_length 0 = 0) by reflexivity.
        assert (L2 : list_item_length 2 = 1) by reflexivity.
        assert (L3 : list_item_length 3 = 2) by reflexivity.
        assert (L4 : list_item_length 4 = 4) by reflexivity.
        assert (L5 : list_item_length 5 = 8) by reflexivity.
        destruct C as [C|[C|[C|[C|C]]]]; rewrite C; unfold list_bytes; cbn [Z.eqb Pos.eqb];
          rewrite ?L0, ?L2, ?L3, ?L4, ?L5; lia. }
      rewrite E. lia.
  - intros p pos vs Hk Ht H1 H2 Hd IH _ Ha fuel Hf. cbn [vdepth] in Hf.
    destruct fuel as [|fuel]; [lia|]. cbn [endof].
    rewrite kind_spec, Hk. cbn [Z.eqb Pos.eqb STRUCT LIST].
    rewrite deref_spec, size_tag_spec, item_count_spec, Ht.
    unfold LIST_SIZE_COMPOSITE, LIST_SIZE_PTR. cbn [Z.eqb Pos.eqb]. unfold endof_list_ptr.
    pose proof (p_lcount_range p).
    apply IH; [unfold p_target; lia|lia|]. right. unfold p_target in *. lia.
  - intros p pos tag items slack Hk Ht Hw Hk2 Ho Hi IH Hb _ Ha fuel Hf. cbn [vdepth] in Hf.
    destruct fuel as [|fuel]; [lia|]. cbn [endof].
    rewrite kind_spec, Hk. cbn [Z.eqb Pos.eqb STRUCT LIST].
    rewrite deref_spec, size_tag_spec, Ht. unfold LIST_SIZE_COMPOSITE. cbn [Z.eqb Pos.eqb].
    rewrite (proj2 (read_ptr_word _ _ _) Hw). cbn [bind].
    rewrite offset_spec, data_size_spec, ptrs_size_spec. unfold endof_list_composite.
    pose proof (p_dsize_range tag). pose proof (p_psize_range tag).
    apply bytes_at_some in Hb. destruct Hb as (B1 & B2 & B3 & _).
    apply word_at_some in Hw. destruct Hw as (W1 & W2 & _).
    set (ds := p_dsize tag) in *. set (ps := p_psize tag) in *. set (n := p_off tag) in *.
    assert (EC : eend s (p_target p pos) (p_target p pos + 8 + (ds + ps) * 8 * n)).
    { right. replace ((ds + ps) * 8 * n) with (8 * ((ds + ps) * n)) by ring.
      assert (0 <= (ds + ps) * n) by (apply Z.mul_nonneg_nonneg; lia).
      generalize dependent ((ds + ps) * n). intros m. intros. unfold p_target in *. lia. }
    destruct (Z.eqb_spec ps 0) as [E|E].
    + eexists. split; [reflexivity|exact EC].
    + replace (p_target p pos + 8 + ds * 8) with (p_target p pos + 8 + 8 * ds) by lia.
      apply IH; try lia; [unfold p_target; lia|exact EC].
  - intros p pos pos' p' v Hk Hfar Hk' Hn Hd IH _ Ha fuel Hf.
    destruct fuel as [|fuel]; [destruct v; cbn [vdepth] in Hf; lia|]. cbn [endof].
    rewrite kind_spec, Hk. cbn [Z.eqb Pos.eqb STRUCT LIST FAR].
    eexists. split; [reflexivity|left; reflexivity].
  - intros pos Hp Ha fuel lo cur Hf Hc. exists cur. split; [reflexivity|exact Hc].
  - intros pos n p v vs Hw Hd IHd Hp IHp Ha fuel lo cur Hf Hc. cbn [endof_ptrs].
    rewrite (proj2 (read_ptr_word _ _ _) Hw). cbn [bind map] in *. rewrite list_max_cons in Hf.
    destruct (Z.eqb_spec p 0) as [->|N].
    + apply IHp; [lia|lia|exact Hc].
    + destruct (deref p pos =? cur) eqn:EQ; cbn [negb]; [|eexists; split; [reflexivity|left; reflexivity]].
      destruct (IHd N Ha fuel ltac:(lia)) as (e & Q & Ee). rewrite Q. cbn [bind].
      apply IHp; [lia|lia|].
      destruct (Z.eq_dec (p_kind p) 2) as [K|K]; [left; apply (endof_far _ _ _ _ _ K Q)|].
      pose proof (den_target_nonneg _ _ _ _ Hd N K). rewrite deref_spec in EQ.
      unfold eend in *. lia.
  - intros pos ds ps Hd Hp Ha fuel lo cur Hf Hc. exists cur. split; [reflexivity|exact Hc].
  - intros pos ds ps n data vs items Hb Hd IHd Hi IHi Hds Hps Ha fuel lo cur Hf Hc. cbn [endof_items].
    cbn [map snd] in Hf. rewrite list_max_cons in Hf.
    destruct (IHd ltac:(lia) fuel lo cur ltac:(lia) Hc) as (e & -> & Ee). cbn [bind].
    destruct (Z.eqb_spec e (-1)); [eexists; split; [reflexivity|left; reflexivity]|].
    replace (pos + 8 * ds + (ds + ps) * 8) with (pos + 8 * (ds + ps) + 8 * ds) by lia.
    apply IHi; try assumption; lia.
Qed.
