(** The canonical encoding of a value denotes that value, wherever it is
    placed. *)
From Verif Require Import Base BaseFacts Spec Ptr PtrFacts Enc EncFacts.
From Coq Require Import ZifyBool ZifyNat.

Ltac Zify.zify_post_hook ::= Z.div_mod_to_equations.

(** The bytes [b] are in [s] at position [pos]. *)
Definition at_ (s : seg) (pos : Z) (b : bytes) : Prop :=
  0 <= pos /\ pos + blen b <= slen s /\ sub (sbuf s) pos (blen b) = b.

Lemma at_app s pos a b : at_ s pos (a ++ b) <-> at_ s pos a /\ at_ s (pos + blen a) b.
Proof.
  unfold at_, slen. rewrite blen_app. nonneg. split.
  - intros (H1 & H2 & H3). rewrite sub_split in H3 by lia.
    assert (E : blen (sub (sbuf s) pos (blen a)) = blen a) by (apply blen_sub; lia).
    pose proof (app_len_inj _ _ _ _ E H3) as Ha.
    destruct Ha. repeat split; auto; lia.
  - intros [(H1 & H2 & H3) (H4 & H5 & H6)]. repeat split; try lia.
    rewrite sub_split by lia. congruence.
Qed.

Lemma at_bytes s pos b n : at_ s pos b -> n = blen b -> bytes_at s pos n = Some b.
Proof.
  intros (H1 & H2 & H3) ->. nonneg. rewrite bytes_at_ok by lia. rewrite H3; reflexivity.
Qed.

Lemma bytes_at_at s pos n b : bytes_at s pos n = Some b -> at_ s pos b.
Proof.
  intros H. apply bytes_at_some in H. destruct H as (H1 & H2 & H3 & H4 & H5).
  unfold at_. rewrite H5. auto.
Qed.

Lemma at_word s pos w :
  at_ s pos (le_enc 8 w) -> word_at s pos = Some (to_signed 64 (w mod 2 ^ 64)).
Proof.
  intros (H1 & H2 & H3). rewrite blen_le_enc in *. unfold word_at.
  destruct (_ && _) eqn:E; [|lia]. change (Z.of_nat 8) with 8 in H3. rewrite H3, le_dec_enc.
  reflexivity.
Qed.

Lemma at_nil s pos : 0 <= pos <= slen s -> at_ s pos [].
Proof. intros. unfold at_. change (blen (@nil byte)) with 0. repeat split; lia. Qed.

(** [p] reads as the word [w]. *)
Definition reads (p w : Z) : Prop := - 2 ^ 63 <= p < 2 ^ 63 /\ p mod 2 ^ 64 = w mod 2 ^ 64.

Lemma reads_signed w : reads (to_signed 64 (w mod 2 ^ 64)) w.
Proof.
  unfold reads. split.
  - apply (to_signed_range 64); [lia|]. apply Z.mod_pos_bound. lia.
  - rewrite to_signed_mod_eq by lia. apply Z.mod_mod. lia.
Qed.

Lemma reads_fields p w : reads p w ->
  p_kind p = p_kind w /\ p_off p = p_off w /\ p_dsize p = p_dsize w /\ p_psize p = p_psize w /\
  p_ltag p = p_ltag w /\ p_lcount p = p_lcount w.
Proof.
  intros [_ H].
  destruct (p_fields_mod p) as (P1 & P2 & P3 & P4 & P5 & P6 & _).
  destruct (p_fields_mod w) as (W1 & W2 & W3 & W4 & W5 & W6 & _).
  rewrite H in *. repeat split; congruence.
Qed.

Lemma reads_zero p : reads p 0 -> p = 0.
Proof. intros [H1 H2]. change (0 mod 2 ^ 64) with 0 in H2. lia. Qed.

Definition enc_ok (v : value) : Prop :=
  forall s p pos base off,
    reads p (ptr_word v off) -> - 2 ^ 29 <= off < 2 ^ 29 ->
    base = pos + 8 + 8 * off -> 0 <= pos <= slen s ->
    blen (content v) <= 2 ^ 32 ->
    at_ s base (content v) ->
    den s p pos v.

Lemma enc_ptrs vs :
  Forall enc_ok vs -> Forall wfv vs ->
  forall s pos base off,
    base = pos + 8 + 8 * off -> pos + 8 * blen vs <= base ->
    base + blen (contents (vcs_of vs)) - pos <= 2 ^ 32 ->
    at_ s pos (ptr_words (vcs_of vs) off) ->
    at_ s base (contents (vcs_of vs)) ->
    den_ptrs s pos (length vs) vs.
Proof.
  intros H. induction H as [|v vs Hv Hvs IH]; intros Hwf s pos base off Hbase Hgap Hlen Hp Hc;
    cbn [length].
  - constructor. destruct Hp as (H1 & H2 & _). cbn [vcs_of map ptr_words] in H2.
    change (blen (@nil byte)) with 0 in H2. lia.
  - inversion Hwf as [|? ? Hw1 Hw2]; subst.
    pose proof (content_mod v Hw1) as Hm.
    rewrite blen_contents_cons in Hlen. rewrite blen_cons in Hgap. nonneg.
    cbn [vcs_of map ptr_words] in Hp. fold (vcs_of vs) in Hp.
    cbn [vcs_of map] in Hc. fold (vcs_of vs) in Hc. rewrite contents_cons in Hc.
    apply at_app in Hp. destruct Hp as [Hp1 Hp2]. apply at_app in Hc. destruct Hc as [Hc1 Hc2].
    rewrite blen_le_enc in Hp2. change (Z.of_nat 8) with 8 in Hp2.
    pose proof Hp1 as (Hq1 & Hq2 & _). rewrite blen_le_enc in Hq2.
    econstructor.
    + apply at_word. exact Hp1.
    + eapply Hv; try exact Hc1; try reflexivity; try lia.
      apply reads_signed.
    + eapply IH; try exact Hp2; try exact Hc2; try assumption; lia.
Qed.

Lemma enc_items ds ps items :
  0 <= ds -> 0 <= ps ->
  Forall (fun it => Forall enc_ok (snd it)) items ->
  Forall (fun it => Forall wfv (snd it)) items ->
  Forall (fun it => blen (fst it) = 8 * ds /\ blen (snd it) = ps) items ->
  forall s pos rem,
    (ds + ps) * blen items <= rem ->
    8 * rem + blen (icontents (ics_of items)) <= 2 ^ 32 ->
    at_ s pos (item_words ds ps (ics_of items) rem) ->
    at_ s (pos + 8 * rem) (icontents (ics_of items)) ->
    den_items s pos ds ps (length items) items.
Proof.
  intros Hds Hps H. induction H as [|[d vs] items Hv Hvs IH];
    intros Hwf Hsz s pos rem Hgap Hlen Hp Hc; cbn [length].
  - constructor.
  - inversion Hwf as [|? ? Hw1 Hw2]; subst. inversion Hsz as [|? ? [Hs1 Hs2] Hs3]; subst.
    cbn [fst snd] in *.
    assert (Hm : blen (contents (vcs_of vs)) mod 8 = 0).
    { apply contents_mod. unfold vcs_of. rewrite Forall_map. cbn [snd].
      eapply Forall_impl; [|exact Hw1]. intros. apply content_mod. assumption. }
    cbn [ics_of map fst snd] in *. fold (ics_of items) in *.
    rewrite icontents_cons in *. rewrite blen_app in Hlen. cbn [item_words] in Hp.
    apply at_app in Hp. destruct Hp as [Hp1 Hp2]. apply at_app in Hp2. destruct Hp2 as [Hp2 Hp3].
    apply at_app in Hc. destruct Hc as [Hc1 Hc2].
    rewrite blen_ptr_words, blen_vcs_of in Hp3.
    rewrite blen_cons in Hgap. nonneg.
    set (n := blen items) in *.
    assert (Hn : 0 <= (ds + blen vs) * n) by nia.
    replace ((ds + blen vs) * (n + 1)) with ((ds + blen vs) * n + ds + blen vs) in Hgap by lia.
    constructor.
    + apply at_bytes; [exact Hp1|lia].
    + replace (Z.to_nat (blen vs)) with (length vs) by (unfold blen; lia).
      rewrite Hs1 in Hp2.
      eapply enc_ptrs; try exact Hp2; try exact Hc1; try assumption; lia.
    + eapply IH with (rem := rem - (ds + blen vs) + blen (contents (vcs_of vs)) / 8);
        try assumption; try lia.
      * replace (pos + 8 * (ds + blen vs)) with (pos + blen d + 8 * blen vs) by lia. exact Hp3.
      * replace (pos + 8 * (ds + blen vs) + 8 * (rem - (ds + blen vs) + blen (contents (vcs_of vs)) / 8))
          with (pos + 8 * rem + blen (contents (vcs_of vs))) by lia. exact Hc2.
Qed.

Lemma enc_den v : wfv v -> enc_ok v.
Proof.
  unfold wfv.
  induction v as [|d vs IH|t c b|vs IH|ds ps items sl IH] using value_ind'; intros Hwf;
    intros s p pos base off Hr Hoff Hbase Hpos Hlen Hat.
  - apply reads_zero in Hr. subst p. constructor.
  - apply (proj1 (vall_struct _ _ _)) in Hwf. destruct Hwf as [(Hw1 & Hw2 & Hw3) Hw4].
    assert (Hall : Forall enc_ok vs) by (rewrite Forall_forall in *; auto).
    pose proof (reads_fields _ _ Hr) as (F1 & F2 & F3 & F4 & _).
    rewrite content_struct in *. rewrite !blen_app, blen_ptr_words, blen_vcs_of in Hlen.
    apply at_app in Hat. destruct Hat as [Ha1 Ha2].
    apply at_app in Ha2. destruct Ha2 as [Ha2 Ha3].
    rewrite blen_ptr_words, blen_vcs_of in Ha3. nonneg.
    cbn [ptr_word] in *. destruct (blen d + blen vs =? 0) eqn:E0.
    + assert (d = []) by (apply blen_0_nil; lia). assert (vs = []) by (apply blen_0_nil; lia).
      subst d vs.
      rewrite w_struct_kind in F1. rewrite w_struct_off in F2 by lia.
      rewrite w_struct_dsize in F3 by lia. rewrite w_struct_psize in F4 by lia.
      assert (Et : p_target p pos = pos) by (unfold p_target; rewrite F2; lia).
      apply den_struct; rewrite ?Et, ?F3, ?F4; auto.
      * intros ->. cbn in F2. lia.
      * apply at_bytes; [apply at_nil; lia|reflexivity].
      * change (Z.to_nat 0) with 0%nat. constructor. lia.
    + rewrite w_struct_kind in F1. rewrite w_struct_off in F2 by lia.
      rewrite w_struct_dsize in F3 by lia. rewrite w_struct_psize in F4 by lia.
      assert (Et : p_target p pos = base) by (unfold p_target; rewrite F2; lia).
      apply den_struct; rewrite ?Et, ?F3, ?F4; auto.
      * intros ->. change (p_dsize 0) with 0 in F3. change (p_psize 0) with 0 in F4. lia.
      * apply at_bytes; [exact Ha1|lia].
      * replace (Z.to_nat (blen vs)) with (length vs) by (unfold blen; lia).
        replace (8 * (blen d / 8)) with (blen d) by lia.
        eapply enc_ptrs with (base := base + blen d + 8 * blen vs); try exact Ha2; try exact Ha3;
          try assumption; lia.
  - apply (proj1 (vall_vlist _ _ _ _)) in Hwf. destruct Hwf as (Hw1 & Hw2 & Hw3).
    pose proof (reads_fields _ _ Hr) as (F1 & F2 & _ & _ & F5 & F6).
    cbn [ptr_word content] in *. unfold pad8 in Hat. apply at_app in Hat. destruct Hat as [Ha1 _].
    rewrite w_list_kind in F1. rewrite w_list_off in F2 by lia.
    rewrite w_list_tag in F5 by lia. rewrite w_list_count in F6 by lia.
    assert (Et : p_target p pos = base) by (unfold p_target; rewrite F2; lia).
    rewrite <- F5, <- F6 in *.
    apply den_list; auto; try lia. rewrite Et. apply at_bytes; auto.
  - apply (proj1 (vall_ptrs _ _)) in Hwf. destruct Hwf as [Hw1 Hw4]. unfold wf1 in Hw1.
    assert (Hall : Forall enc_ok vs) by (rewrite Forall_forall in *; auto).
    pose proof (reads_fields _ _ Hr) as (F1 & F2 & _ & _ & F5 & F6).
    rewrite content_ptrs in *. rewrite !blen_app, blen_ptr_words, blen_vcs_of in Hlen.
    apply at_app in Hat. destruct Hat as [Ha2 Ha3].
    rewrite blen_ptr_words, blen_vcs_of in Ha3. nonneg. cbn [ptr_word] in *.
    rewrite w_list_kind in F1. rewrite w_list_off in F2 by lia.
    rewrite w_list_tag in F5 by lia. rewrite w_list_count in F6 by lia.
    assert (Et : p_target p pos = base) by (unfold p_target; rewrite F2; lia).
    pose proof Ha2 as (Hb1 & Hb2 & _). rewrite blen_ptr_words, blen_vcs_of in Hb2.
    apply den_plist; rewrite ?Et, ?F6; auto; try lia.
    replace (Z.to_nat (blen vs)) with (length vs) by (unfold blen; lia).
    eapply enc_ptrs with (base := base + 8 * blen vs); try exact Ha2; try exact Ha3;
      try assumption; lia.
  - apply (proj1 (vall_comp _ _ _ _ _)) in Hwf. destruct Hwf as [(Hw1 & Hw2 & Hw3 & Hw4 & Hw5 & Hw6) Hw7].
    assert (Hall : Forall (fun it : bytes * list value => Forall enc_ok (snd it)) items).
    { rewrite Forall_forall in *. intros it Hit. specialize (IH it Hit). specialize (Hw7 it Hit).
      rewrite Forall_forall in *. auto. }
    pose proof (reads_fields _ _ Hr) as (F1 & F2 & _ & _ & F5 & F6).
    rewrite content_comp in *. rewrite !blen_app, blen_le_enc in Hlen.
    rewrite blen_item_words in Hlen by (apply ics_of_sizes; exact Hw3).
    rewrite blen_ics_of in Hlen.
    apply at_app in Hat. destruct Hat as [Ha1 Ha2].
    apply at_app in Ha2. destruct Ha2 as [Ha2 Ha3].
    apply at_app in Ha3. destruct Ha3 as [Ha3 Ha4].
    rewrite blen_le_enc in *. change (Z.of_nat 8) with 8 in *.
    rewrite blen_item_words in Ha3 by (apply ics_of_sizes; exact Hw3).
    rewrite blen_item_words in Ha4 by (apply ics_of_sizes; exact Hw3).
    rewrite blen_ics_of in *. nonneg. cbn [ptr_word] in *.
    set (IS := (ds + ps) * blen items) in *.
    assert (HIS : 0 <= IS) by (unfold IS; nia).
    rewrite w_list_kind in F1. rewrite w_list_off in F2 by lia.
    rewrite w_list_tag in F5 by lia. rewrite w_list_count in F6 by lia.
    assert (Et : p_target p pos = base) by (unfold p_target; rewrite F2; lia).
    pose proof (at_word _ _ _ Ha1) as Hw.
    set (tag := to_signed 64 _) in Hw.
    pose proof (reads_fields tag _ (reads_signed _)) as (T1 & T2 & T3 & T4 & _).
    rewrite w_struct_kind in T1. rewrite w_struct_off in T2 by lia.
    rewrite w_struct_dsize in T3 by lia. rewrite w_struct_psize in T4 by lia.
    rewrite <- T3, <- T4.
    apply den_clist; rewrite ?Et, ?T2, ?T3, ?T4, ?F6; auto; try lia.
    + replace (Z.to_nat (blen items)) with (length items) by (unfold blen; lia).
      assert (HISd : (ds + ps) * blen items = IS) by reflexivity. clearbody IS.
      assert (Hq : 0 <= blen sl / 8) by lia.
      assert (G : (ds + ps) * blen items <= IS + blen sl / 8) by lia.
      eapply enc_items; try exact Ha2; try assumption; try exact G; try lia.
      replace (base + 8 + 8 * (IS + blen sl / 8)) with (base + 8 + 8 * IS + blen sl) by lia.
      exact Ha4.
    + apply at_bytes; [exact Ha3|]. fold IS. lia.
Qed.
