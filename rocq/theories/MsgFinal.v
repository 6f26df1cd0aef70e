(** Final lemmas about loading: from strings and from chunked streams. *)
From Verif Require Import Base Spec BaseFacts Ptr Segment SegmentFacts EncFacts Struct Message List Query
  StructFacts Stream StreamFacts MessageFacts SegSpec SegFlat.
From Coq Require Import ZifyBool.
Ltac Zify.zify_post_hook ::= Z.div_mod_to_equations.

(** What loading the segments themselves gives, without any framing. *)
Definition open_segments (segs : list bytes) : res (option obj) :=
  do msg <- init_from_buffer (mem_of segs) 0 0 1; o_read_struct msg 0.

(** ** StringBuffer *)
Definition R_sb (a : sb_state) (b : bytes * Z) : Prop :=
  sb_ok a /\ sb_left a = fst b /\ snd a = snd b.

Lemma sb_sim n a b : 0 <= n -> R_sb a b ->
  fst (sb_read n a) = fst (cread n b) /\ R_sb (snd (sb_read n a)) (snd (cread n b)).
Proof.
  intros Hn (O & L & I). destruct (sb_read_spec a n O Hn) as (A1 & A2 & A3).
  destruct b as [r c]. cbn [fst snd cread] in *. subst r.
  split; [exact A1|]. split; [exact A3|]. split; [exact A2|].
  destruct a as [s i]. cbn [snd sb_read] in *. lia.
Qed.

Definition R_bs (a : bs) (b : bytes * Z) : Prop := bs_ok a /\ bs_left a = fst b.

Lemma bs_sim n a b : 0 <= n -> R_bs a b ->
  fst (bs_read n a) = fst (cread n b) /\ R_bs (snd (bs_read n a)) (snd (cread n b)).
Proof.
  intros Hn (O & L). destruct (bs_read_spec a n O Hn) as (A1 & A2 & A3).
  destruct b as [r c]. cbn [fst snd cread] in *. subst r.
  split; [exact A1|]. split; [exact A3|]. exact A2.
Qed.

Lemma load_frame_c segs pad rest c :
  frameable segs -> pad_ok pad segs ->
  load _ cread (frame_with pad segs ++ rest, c)
  = (open_segments segs, (rest, c + blen (frame_with pad segs))).
Proof.
  intros F P. unfold load, open_segments. rewrite load_message_frame by assumption.
  destruct (init_from_buffer (mem_of segs) 0 0 1); reflexivity.
Qed.

Lemma loads_cread r :
  loads r = match load _ cread (r, 0) with
            | (Err e, _) => Err e
            | (Ok x, (_, c)) => if c =? blen r then Ok x else Err ValueError
            end.
Proof.
  unfold loads.
  assert (R0 : R_sb (r, 0) (r, 0)).
  { split; [cbn; unfold sb_ok; cbn; lia|]. split; [reflexivity|reflexivity]. }
  destruct (load_sim sb_read cread R_sb sb_sim _ _ R0) as [X1 (_ & _ & X2)].
  destruct (load sb_state sb_read (r, 0)) as [r1 [s1 i1]].
  destruct (load _ cread (r, 0)) as [r2 [s2 i2]]. cbn [fst snd] in X1, X2. subst.
  destruct r2; [|reflexivity]. destruct (i2 =? blen r); reflexivity.
Qed.

Lemma loads_frame segs pad :
  frameable segs -> pad_ok pad segs -> loads (frame_with pad segs) = open_segments segs.
Proof.
  intros F P. rewrite loads_cread. rewrite <- (app_nil_r (frame_with pad segs)) at 1.
  rewrite load_frame_c by assumption. destruct (open_segments segs); [|reflexivity].
  rewrite Z.add_0_l, Z.eqb_refl. reflexivity.
Qed.

Lemma loads_extra segs pad extra :
  frameable segs -> pad_ok pad segs -> extra <> [] ->
  loads (frame_with pad segs ++ extra)
  = match open_segments segs with Ok _ => Err ValueError | Err e => Err e end.
Proof.
  intros F P N. rewrite loads_cread, load_frame_c by assumption.
  destruct (open_segments segs); [|reflexivity].
  rewrite blen_app. destruct extra as [|x extra]; [congruence|].
  rewrite blen_cons. pose proof (blen_nonneg extra).
  destruct (Z.eqb_spec (0 + blen (frame_with pad segs)) (blen (frame_with pad segs) + (blen extra + 1))); [lia|reflexivity].
Qed.

Lemma loads_sound r x :
  loads r = Ok x -> exists segs pad, frameable segs /\ pad_ok pad segs /\ r = frame_with pad segs /\
                                    open_segments segs = Ok x.
Proof.
  rewrite loads_cread. unfold load.
  destruct (load_message _ cread (r, 0)) as [[o|e] st] eqn:E; [|discriminate].
  destruct (load_message_sound _ _ _ _ E) as (segs & pad & rest & F & P & -> & -> & I).
  destruct (o_read_struct o 0) as [y|e] eqn:OR; [|discriminate].
  rewrite blen_app. destruct (Z.eqb_spec (0 + blen (frame_with pad segs)) (blen (frame_with pad segs) + blen rest)) as [Q|Q];
    [|discriminate].
  intros H. apply ok_inj in H. subst y.
  assert (blen rest = 0) as Z0 by lia. apply blen_0_nil in Z0. subst rest. rewrite app_nil_r.
  exists segs, pad. split; [exact F|]. split; [exact P|]. split; [reflexivity|].
  unfold open_segments. rewrite I. exact OR.
Qed.

(** ** Truncation, for any chunking *)
Lemma load_truncated_c segs pad pre more c :
  frameable segs -> pad_ok pad segs -> pre ++ more = frame_with pad segs -> more <> [] ->
  exists e, fst (load _ cread (pre, c)) = Err e /\ (e = EOFError <-> pre = []) /\
            (pre <> [] -> e = ValueError \/ (concat segs = [] /\ e = AssertionError)).
Proof.
  intros F P E M. unfold load.
  destruct (concat segs) as [|x l] eqn:C.
  - destruct (load_message_empty segs pad pre more c F P C E) as (e & X & A & B).
    destruct (load_message _ cread (pre, c)) as [[o|e'] st]; cbn [fst] in *; [discriminate|].
    injection X as ->. exists e. split; [reflexivity|]. split.
    + split; [|exact A]. intros ->. destruct pre; [reflexivity|]. destruct B; congruence.
    + intros N. destruct (B N); auto.
  - assert (NE : concat segs <> []) by (rewrite C; discriminate).
    pose proof (load_message_truncated segs pad pre more c F P NE E M) as X.
    destruct (load_message _ cread (pre, c)) as [[o|e'] st]; cbn [fst] in *; [discriminate|].
    injection X as ->. destruct pre; eexists; (split; [reflexivity|]); split; try split; auto; congruence.
Qed.

(** ** Sequences of messages *)
Definition stream_of (l : list (bytes * list bytes)) : bytes :=
  concat (map (fun m => frame_with (fst m) (snd m)) l).

Lemma load_all_c l : forall xs tail c fuel,
  Forall (fun m => frameable (snd m) /\ pad_ok (fst m) (snd m)) l ->
  Forall2 (fun m x => open_segments (snd m) = Ok x) l xs ->
  (length l < fuel)%nat ->
  load_all _ cread fuel (stream_of l ++ tail, c) =
  (let (ys, e) := load_all _ cread (fuel - length l) (tail, c + blen (stream_of l)) in (xs ++ ys, e)).
Proof.
  induction l as [|m l IH]; intros xs tail c fuel F X Hf.
  - inversion X; subst. cbn [stream_of map concat app length]. rewrite Nat.sub_0_r.
    change (blen (stream_of [])) with 0. rewrite Z.add_0_r.
    destruct (load_all _ cread fuel (tail, c)); reflexivity.
  - inversion F as [|? ? [F1 F2] F']; subst. inversion X as [|? x ? xs' X1 X']; subst.
    destruct fuel as [|fuel]; [cbn in Hf; lia|]. cbn [length] in Hf. cbn [load_all].
    unfold stream_of. cbn [map concat]. fold (stream_of l). rewrite <- app_assoc.
    rewrite load_frame_c by assumption. rewrite X1.
    rewrite (IH xs' tail _ fuel F' X') by lia.
    cbn [length Nat.sub]. rewrite blen_app.
    replace (c + (blen (frame_with (fst m) (snd m)) + blen (stream_of l)))
      with (c + blen (frame_with (fst m) (snd m)) + blen (stream_of l)) by lia.
    destruct (load_all _ cread (fuel - length l) _) as [ys e]. reflexivity.
Qed.

Lemma load_all_bs l xs chunks fuel :
  Forall (fun m => frameable (snd m) /\ pad_ok (fst m) (snd m)) l ->
  Forall2 (fun m x => open_segments (snd m) = Ok x) l xs ->
  Forall (fun ch => ch <> []) chunks -> concat chunks = stream_of l ->
  (length l < fuel)%nat ->
  load_all _ bs_read fuel (bs_init chunks) = (xs, None).
Proof.
  intros F X CH E Hf.
  assert (R0 : R_bs (bs_init chunks) (stream_of l ++ [], 0)).
  { split; [split; [cbn; lia|exact CH]|]. cbn [fst]. rewrite app_nil_r, <- E. reflexivity. }
  rewrite (load_all_sim bs_read cread R_bs bs_sim fuel _ _ R0).
  rewrite (load_all_c l xs [] 0 fuel F X Hf).
  destruct (fuel - length l)%nat eqn:D; [lia|]. cbn [load_all]. unfold load, load_message, cread.
  rewrite firstn_nil, skipn_nil. change (blen (@nil byte) =? 0) with true. cbn match. rewrite app_nil_r. reflexivity.
Qed.

Lemma load_all_bs_cut l xs m pre more chunks fuel :
  Forall (fun m => frameable (snd m) /\ pad_ok (fst m) (snd m)) l ->
  Forall2 (fun m x => open_segments (snd m) = Ok x) l xs ->
  frameable (snd m) -> pad_ok (fst m) (snd m) -> concat (snd m) <> [] ->
  pre ++ more = frame_with (fst m) (snd m) -> pre <> [] -> more <> [] ->
  Forall (fun ch => ch <> []) chunks -> concat chunks = stream_of l ++ pre ->
  (length l < fuel)%nat ->
  load_all _ bs_read fuel (bs_init chunks) = (xs, Some ValueError).
Proof.
  intros F X Fm Pm NE E PN MN CH EC Hf.
  assert (R0 : R_bs (bs_init chunks) (stream_of l ++ pre, 0)).
  { split; [split; [cbn; lia|exact CH]|]. cbn [fst]. rewrite <- EC. reflexivity. }
  rewrite (load_all_sim bs_read cread R_bs bs_sim fuel _ _ R0).
  rewrite (load_all_c l xs pre 0 fuel F X Hf).
  destruct (fuel - length l)%nat eqn:D; [lia|]. cbn [load_all].
  destruct (load_truncated_c (snd m) (fst m) pre more (0 + blen (stream_of l)) Fm Pm E MN) as (e & L & _ & V).
  destruct (V PN) as [->|[C _]]; [|congruence].
  destruct (load _ cread _) as [r st]. cbn [fst] in L. rewrite L. rewrite app_nil_r. reflexivity.
Qed.

(** ** Chunked = plain *)
Lemma load_chunks chunks r st' :
  Forall (fun ch => ch <> []) chunks ->
  load _ bs_read (bs_init chunks) = (r, st') ->
  exists i', load _ sb_read (concat chunks, 0) = (r, (concat chunks, i')) /\
             bs_left st' = sb_left (concat chunks, i') /\ bs_ok st' /\ 0 <= i'.
Proof.
  intros CH E.
  assert (R0 : R_bs (bs_init chunks) (concat chunks, 0)).
  { split; [split; [cbn; lia|exact CH]|]. reflexivity. }
  assert (R1 : R_sb (concat chunks, 0) (concat chunks, 0)).
  { split; [cbn; unfold sb_ok; cbn; lia|]. split; reflexivity. }
  destruct (load_sim bs_read cread R_bs bs_sim _ _ R0) as [X1 [X2 X3]].
  destruct (load_sim sb_read cread R_sb sb_sim _ _ R1) as [Y1 [Y2 [Y3 Y4]]].
  assert (S0 : fst (snd (load sb_state sb_read (concat chunks, 0))) = concat chunks).
  { pose (Rs := fun (a : sb_state) (b : bytes * Z) => R_sb a b /\ fst a = concat chunks).
    assert (SIM : forall n a b, 0 <= n -> Rs a b ->
      fst (sb_read n a) = fst (cread n b) /\ Rs (snd (sb_read n a)) (snd (cread n b))).
    { intros n a b Hn [Ra Fa]. destruct (sb_sim n a b Hn Ra) as [Z1 Z2].
      split; [exact Z1|]. split; [exact Z2|]. destruct a as [s i]. exact Fa. }
    destruct (load_sim sb_read cread Rs SIM (concat chunks, 0) (concat chunks, 0)) as [_ [_ Z]];
      [split; [exact R1|reflexivity]|exact Z]. }
  rewrite E in *. destruct (load sb_state sb_read (concat chunks, 0)) as [r2 [s2 i2]].
  cbn [fst snd] in *. subst s2. exists i2.
  split; [rewrite Y1, <- X1; reflexivity|]. split; [exact (eq_trans X3 (eq_sym Y3))|]. split; [exact X2|]. exact Y2.
Qed.

Lemma load_chunks_pos chunks segs pad rest :
  Forall (fun ch => ch <> []) chunks -> frameable segs -> pad_ok pad segs ->
  concat chunks = frame_with pad segs ++ rest ->
  exists st', load _ bs_read (bs_init chunks) = (open_segments segs, st') /\
              bs_left st' = rest /\ bs_ok st'.
Proof.
  intros CH F P E.
  assert (R0 : R_bs (bs_init chunks) (concat chunks, 0)).
  { split; [split; [cbn; lia|exact CH]|]. reflexivity. }
  destruct (load_sim bs_read cread R_bs bs_sim _ _ R0) as [X1 [X2 X3]].
  rewrite E, load_frame_c in X1, X3 by assumption.
  destruct (load _ bs_read (bs_init chunks)) as [r1 st1]. cbn [fst snd] in *.
  exists st1. rewrite X1. auto.
Qed.

(** ** The value of a loaded message *)
Lemma open_segments_value segs p v :
  word_at (mem_of segs) 0 = Some p -> den (mem_of segs) p 0 v ->
  match v with
  | VNull => open_segments segs = Ok None
  | VStruct d vs => exists o, open_segments segs = Ok (Some o) /\ obj_den o d vs
  | _ => open_segments segs = Err AssertionError
  end.
Proof.
  intros W D. destruct (word_at_some _ _ _ W) as (_ & L & _).
  assert (I : exists msg, init_from_buffer (mem_of segs) 0 0 1 = Ok msg /\ obj_den msg [] [v]).
  { unfold init_from_buffer. cbn [o_off o_ptrs]. unfold slen in L.
    replace (0 + 0 * 8 <=? blen (sbuf (mem_of segs))) with true by (symmetry; lia).
    replace (0 + 0 * 8 + 1 * 8 <=? blen (sbuf (mem_of segs))) with true by (symmetry; lia).
    cbn [py_assert bind]. eexists. split; [reflexivity|].
    split; [reflexivity|]. cbn [o_ds o_ps o_off o_seg]. split; [lia|]. split; [lia|].
    split.
    - unfold bytes_at. unfold slen. replace (0 + 8 * 0 <=? blen (sbuf (mem_of segs))) with true by (symmetry; lia).
      reflexivity.
    - change (Z.to_nat 1) with 1%nat. eapply dp_cons; [exact W|exact D|]. constructor.
      unfold slen. lia. }
  destruct I as (msg & I1 & I2). unfold open_segments. rewrite I1. cbn [bind].
  pose proof (o_read_struct_spec msg [] [v] 0 I2 ltac:(lia)) as S.
  change (v_ptr [v] 0) with v in S. change (8 * 0) with 0 in S.
  destruct v; try exact S. destruct S as (o & S1 & S2 & _). exists o. auto.
Qed.

(** ** No over-reading from the transport

    [R_used chunks a (r, c)]: [c] bytes have been asked for so far; the chunks
    taken from the transport are [used], and without the last of them there
    were not enough bytes. *)
Definition R_used (chunks : list bytes) (a : bs) (b : bytes * Z) : Prop :=
  R_bs a b /\ 0 <= snd b /\
  exists used, chunks = used ++ bs_src a /\
    skipn (Z.to_nat (bs_i a)) (bs_buf a) = skipn (Z.to_nat (snd b)) (concat used) /\
    (snd b <= blen (concat used) \/ bs_src a = []) /\
    (used = [] \/ blen (concat (removelast used)) < snd b).

Lemma removelast_app_ne {A} (a b : list A) : b <> [] -> removelast (a ++ b) = a ++ removelast b.
Proof. apply removelast_app. Qed.

Lemma bs_fill_loop_used : forall src total size ps rest,
  Forall (fun c => c <> []) src -> bs_fill_loop total size src = (ps, rest) ->
  exists used, src = used ++ rest /\ ps = concat used /\
    (used = [] \/ total + blen (concat (removelast used)) < size).
Proof.
  induction src as [|ch src IH]; intros total size ps rest F E; cbn [bs_fill_loop] in E.
  - destruct (total <? size); injection E as <- <-; exists []; auto.
  - inversion F as [|? ? Hc F']; subst.
    destruct (Z.ltb_spec total size) as [L|L]; [|injection E as <- <-; exists []; auto].
    destruct ch as [|b ch]; [congruence|].
    destruct (bs_fill_loop (total + blen (b :: ch)) size src) as [ps' rest'] eqn:E'.
    injection E as <- <-.
    destruct (IH _ _ _ _ F' E') as (used & -> & -> & U).
    exists ((b :: ch) :: used). split; [reflexivity|]. split; [reflexivity|]. right.
    destruct U as [->|U]; [cbn; lia|].
    destruct used as [|u used]; [cbn; lia|].
    change (removelast ((b :: ch) :: u :: used)) with ((b :: ch) :: removelast (u :: used)).
    change (concat ((b :: ch) :: removelast (u :: used))) with ((b :: ch) ++ concat (removelast (u :: used))).
    rewrite blen_app. lia.
Qed.

Lemma skipn_firstn_split {A} (l : list A) n m : skipn n (skipn m l) = skipn (m + n) l.
Proof. rewrite skipn_skipn. f_equal. lia. Qed.

Lemma bs_used_sim chunks n a b : 0 <= n -> R_used chunks a b ->
  fst (bs_read n a) = fst (cread n b) /\ R_used chunks (snd (bs_read n a)) (snd (cread n b)).
Proof.
  intros Hn ([O L] & C0 & used & E & J & K & U).
  destruct (bs_sim n a b Hn (conj O L)) as [S1 S2].
  split; [exact S1|]. split; [exact S2|].
  destruct b as [r c]. cbn [fst snd cread] in *. split; [lia|].
  destruct O as [Oi Of].
  assert (LJ : blen (skipn (Z.to_nat c) (concat used)) = Z.max 0 (blen (concat used) - c)).
  { unfold blen. rewrite skipn_length. lia. }
  unfold bs_read. destruct (Z.ltb_spec (blen (bs_buf a)) (bs_i a + n)) as [B|B].
  - unfold bs_fillbuf. rewrite py_from_nonneg by exact Oi. rewrite J.
    pose proof (bs_fill_loop_spec (bs_src a) (blen (skipn (Z.to_nat c) (concat used))) n Of) as SP.
    destruct (bs_fill_loop (blen (skipn (Z.to_nat c) (concat used))) n (bs_src a)) as [ps rest] eqn:FL.
    destruct SP as (_ & _ & SP).
    cbn [snd bs_src bs_buf bs_i].
    destruct (bs_fill_loop_used _ _ _ _ _ Of FL) as (u & E2 & -> & U2).
    rewrite LJ in SP, U2.
    exists (used ++ u). split; [rewrite <- app_assoc, <- E2; exact E|].
    rewrite concat_app, blen_app.
    assert (X : c <= blen (concat used) \/ (bs_src a = [] /\ u = [] /\ rest = [])).
    { destruct K as [K|K]; [left; exact K|right]. rewrite K in E2. symmetry in E2.
      apply app_eq_nil in E2. tauto. }
    split; [|split].
    + rewrite Z2Nat.inj_add by lia. rewrite <- (skipn_firstn_split (concat used ++ concat u)).
      destruct X as [X|(_ & -> & _)].
      * rewrite (skipn_app_le (concat used)) by (unfold blen in X; lia). reflexivity.
      * cbn [concat]. rewrite !app_nil_r. reflexivity.
    + destruct X as [X|(_ & _ & X)]; [|auto]. destruct SP as [SP|SP]; [left; lia|auto].
    + destruct U2 as [->|U2].
      * rewrite app_nil_r. destruct U as [U|U]; [auto|right; lia].
      * destruct u as [|x u].
        { rewrite app_nil_r. destruct U as [U|U]; [auto|right; lia]. }
        right. rewrite removelast_app_ne by discriminate. rewrite concat_app, blen_app.
        destruct X as [X|(_ & X & _)]; [lia|discriminate].
  - cbn [snd bs_src bs_buf bs_i]. exists used. split; [exact E|].
    assert (LB : blen (bs_buf a) - bs_i a <= Z.max 0 (blen (concat used) - c)).
    { rewrite <- LJ, <- J. unfold blen. rewrite skipn_length. lia. }
    split; [|split].
    + rewrite !Z2Nat.inj_add by lia. rewrite <- !skipn_firstn_split, J. reflexivity.
    + destruct K as [K|K]; [left; lia|auto].
    + destruct U as [U|U]; [auto|right; lia].
Qed.

(** After loading one message, the transport has been asked for no chunk
    beyond the one where the message ends. *)
Lemma load_no_overread chunks segs pad rest :
  Forall (fun ch => ch <> []) chunks -> frameable segs -> pad_ok pad segs ->
  concat chunks = frame_with pad segs ++ rest ->
  exists st' used,
    load _ bs_read (bs_init chunks) = (open_segments segs, st') /\
    chunks = used ++ bs_src st' /\
    blen (concat (removelast used)) < blen (frame_with pad segs).
Proof.
  intros CH F P E.
  assert (R0 : R_used chunks (bs_init chunks) (concat chunks, 0)).
  { split; [split; [split; [cbn; lia|exact CH]|reflexivity]|]. split; [cbn; lia|].
    exists []. split; [reflexivity|]. split; [reflexivity|]. split; [left; cbn; lia|auto]. }
  destruct (load_sim bs_read cread (R_used chunks) (bs_used_sim chunks) _ _ R0) as [X1 (_ & _ & used & X3 & _ & _ & X4)].
  rewrite E, load_frame_c in X1, X4 by assumption.
  destruct (load _ bs_read (bs_init chunks)) as [r1 st1]. cbn [fst snd] in *.
  exists st1, used. rewrite X1. split; [reflexivity|]. split; [exact X3|].
  assert (PF : 0 < blen (frame_with pad segs)).
  { unfold frame_with. rewrite !blen_app, blen_le_enc. unfold blen. lia. }
  destruct X4 as [->|X4]; [cbn; lia|lia].
Qed.

(** ** The statements used in Properties_Load.v *)
Lemma load_message_sb segs pad rest :
  frameable segs -> pad_ok pad segs ->
  fst (load_message _ sb_read (frame_with pad segs ++ rest, 0)) = init_from_buffer (mem_of segs) 0 0 1.
Proof.
  intros F P.
  assert (R1 : R_sb (frame_with pad segs ++ rest, 0) (frame_with pad segs ++ rest, 0)).
  { split; [cbn; unfold sb_ok; cbn; lia|]. split; reflexivity. }
  destruct (load_message_sim sb_read cread R_sb sb_sim _ _ R1) as [X _].
  rewrite X, load_message_frame by assumption. reflexivity.
Qed.

Lemma segment_table (segs : list bytes) k b :
  nth_error segs k = Some b ->
  nth_error (map (prefix_sum segs) (seq 0 (length segs))) k = Some (prefix_sum segs k) /\
  sub (concat segs) (prefix_sum segs k) (blen b) = b.
Proof.
  intros H. split.
  - assert (L : (k < length segs)%nat) by (apply nth_error_Some; congruence).
    rewrite nth_error_map, nth_error_nth' with (d := O) by (rewrite seq_length; exact L).
    rewrite seq_nth by exact L. reflexivity.
  - destruct (concat_split _ _ _ H) as (pre & post & E & L). rewrite E, <- L.
    replace (blen pre) with (blen pre + 0) by lia. pose proof (blen_nonneg b).
    rewrite sub_mid by lia. apply sub_all.
Qed.

Lemma loads_value segs pad p v :
  frameable segs -> pad_ok pad segs ->
  word_at (mem_of segs) 0 = Some p -> den (mem_of segs) p 0 v ->
  match v with
  | VNull => loads (frame_with pad segs) = Ok None
  | VStruct d vs => exists o, loads (frame_with pad segs) = Ok (Some o) /\ obj_den o d vs
  | _ => loads (frame_with pad segs) = Err AssertionError
  end.
Proof.
  intros F P W D. rewrite loads_frame by assumption. apply (open_segments_value _ _ _ W D).
Qed.

Lemma loads_truncated segs pad pre more :
  frameable segs -> pad_ok pad segs -> pre ++ more = frame_with pad segs -> more <> [] ->
  exists e, loads pre = Err e /\ (e = EOFError <-> pre = []) /\
            (pre <> [] -> e = ValueError \/ (concat segs = [] /\ e = AssertionError)).
Proof.
  intros F P E M. rewrite loads_cread.
  destruct (load_truncated_c segs pad pre more 0 F P E M) as (e & L & X).
  exists e. split; [|exact X].
  match goal with |- context [load ?A ?B ?C] => change (fst (load A B C) = Err e) in L; destruct (load A B C) as [r st] end.
  cbn [fst] in L. rewrite L. reflexivity.
Qed.

Lemma load_truncated_bs segs pad pre more chunks :
  frameable segs -> pad_ok pad segs -> pre ++ more = frame_with pad segs -> more <> [] ->
  Forall (fun ch => ch <> []) chunks -> concat chunks = pre ->
  exists e, fst (load _ bs_read (bs_init chunks)) = Err e /\ (e = EOFError <-> pre = []) /\
            (pre <> [] -> e = ValueError \/ (concat segs = [] /\ e = AssertionError)).
Proof.
  intros F P E M CH EC.
  destruct (load_truncated_c segs pad pre more 0 F P E M) as (e & L & X).
  assert (R0 : R_bs (bs_init chunks) (pre, 0)).
  { split; [split; [cbn; lia|exact CH]|]. exact EC. }
  destruct (load_sim bs_read cread R_bs bs_sim _ _ R0) as [X1 _].
  exists e. split; [|exact X]. rewrite X1. exact L.
Qed.

Lemma truncated_padding : exists segs pad pre more,
    frameable segs /\ pad_ok pad segs /\ pre ++ more = frame_with pad segs /\ more <> [] /\
    loads pre = Err AssertionError.
Proof.
  exists [[]; []], (zeros 4), (frame_with (zeros 2) [[]; []]), (zeros 2).
  split; [|split; [reflexivity|split; [reflexivity|split; [discriminate|vm_compute; reflexivity]]]].
  split; [discriminate|]. split; [vm_compute; discriminate|]. repeat constructor.
Qed.

Lemma loads_trailing segs pad extra :
  frameable segs -> pad_ok pad segs -> extra <> [] ->
  (exists e, loads (frame_with pad segs ++ extra) = Err e) /\
  forall x, loads (frame_with pad segs) = Ok x ->
            loads (frame_with pad segs ++ extra) = Err ValueError.
Proof.
  intros F P N. rewrite loads_extra, loads_frame by assumption. split.
  - destruct (open_segments segs); eexists; reflexivity.
  - intros x ->. reflexivity.
Qed.

Lemma loads_only r x :
  loads r = Ok x ->
  exists segs pad, frameable segs /\ pad_ok pad segs /\ r = frame_with pad segs.
Proof.
  intros H. destruct (loads_sound r x H) as (segs & pad & A & B & C & _). exists segs, pad. auto.
Qed.

Lemma open_of_loads msgs xs :
  Forall (fun m => frameable (snd m) /\ pad_ok (fst m) (snd m)) msgs ->
  Forall2 (fun m x => loads (frame_with (fst m) (snd m)) = Ok x) msgs xs ->
  Forall2 (fun m x => open_segments (snd m) = Ok x) msgs xs.
Proof.
  intros F X. induction X as [|m x msgs xs E X IH]; [constructor|].
  inversion F as [|? ? [F1 F2] F']; subst. constructor; [|apply IH; exact F'].
  rewrite <- (loads_frame _ _ F1 F2). exact E.
Qed.

Lemma load_all_stream msgs xs chunks fuel :
  Forall (fun m => frameable (snd m) /\ pad_ok (fst m) (snd m)) msgs ->
  Forall2 (fun m x => loads (frame_with (fst m) (snd m)) = Ok x) msgs xs ->
  Forall (fun ch => ch <> []) chunks ->
  concat chunks = concat (map (fun m => frame_with (fst m) (snd m)) msgs) ->
  (length msgs < fuel)%nat ->
  load_all _ bs_read fuel (bs_init chunks) = (xs, None).
Proof.
  intros F X CH E L. apply (load_all_bs msgs); try assumption. apply open_of_loads; assumption.
Qed.

Lemma load_all_stream_cut msgs xs m pre more chunks fuel :
  Forall (fun m => frameable (snd m) /\ pad_ok (fst m) (snd m)) msgs ->
  Forall2 (fun m x => loads (frame_with (fst m) (snd m)) = Ok x) msgs xs ->
  frameable (snd m) -> pad_ok (fst m) (snd m) -> concat (snd m) <> [] ->
  pre ++ more = frame_with (fst m) (snd m) -> pre <> [] -> more <> [] ->
  Forall (fun ch => ch <> []) chunks ->
  concat chunks = concat (map (fun m => frame_with (fst m) (snd m)) msgs) ++ pre ->
  (length msgs < fuel)%nat ->
  load_all _ bs_read fuel (bs_init chunks) = (xs, Some ValueError).
Proof.
  intros F X. intros. eapply (load_all_bs_cut msgs xs m pre more); try eassumption.
  apply open_of_loads; assumption.
Qed.

Lemma sb_run_init s ops :
  Forall op_ok ops ->
  run_ops sb_read sb_readall sb_readline ops (s, 0) =
  run_ops ideal_read ideal_readall ideal_readline ops s.
Proof. intros O. rewrite sb_run; [reflexivity|exact O|]. unfold sb_ok. cbn. lia. Qed.

Lemma load_then_read chunks segs pad rest ops :
  Forall (fun ch => ch <> []) chunks -> frameable segs -> pad_ok pad segs ->
  concat chunks = frame_with pad segs ++ rest -> Forall op_ok ops ->
  exists st', load _ bs_read (bs_init chunks) = (loads (frame_with pad segs), st') /\
    run_ops bs_read bs_readall bs_readline ops st' =
    run_ops ideal_read ideal_readall ideal_readline ops rest.
Proof.
  intros CH F P E O. destruct (load_chunks_pos chunks segs pad rest CH F P E) as (st & A & B & C).
  exists st. rewrite loads_frame by assumption. split; [exact A|]. rewrite bs_run by assumption.
  rewrite B. reflexivity.
Qed.

Lemma load_no_overread' chunks segs pad rest :
  Forall (fun ch => ch <> []) chunks -> frameable segs -> pad_ok pad segs ->
  concat chunks = frame_with pad segs ++ rest ->
  exists st' used,
    load _ bs_read (bs_init chunks) = (loads (frame_with pad segs), st') /\
    chunks = used ++ bs_src st' /\
    blen (concat (removelast used)) < blen (frame_with pad segs).
Proof. intros CH F P E. rewrite loads_frame by assumption. apply (load_no_overread _ _ _ rest); assumption. Qed.

Lemma socket_sends ops :
  let st := w_run ops {| w_buf := []; w_sent := [] |} in
  w_sent st = flushed ops /\ w_sent st ++ concat (w_buf st) = written ops.
Proof.
  destruct (w_run_spec ops {| w_buf := []; w_sent := [] |}) as [A B]. cbn [w_sent w_buf concat app] in *.
  split; [|exact B]. rewrite A.
  destruct (existsb _ ops) eqn:E; [reflexivity|].
  clear A B. symmetry. induction ops as [|o ops IH]; [reflexivity|]. cbn [existsb] in E.
  destruct o; cbn [orb] in E; [|discriminate]. cbn [flushed]. rewrite E. reflexivity.
Qed.

Lemma failed_flush_duplicates : exists ops k,
  let st := w_run ops {| w_buf := []; w_sent := [] |} in
  let st' := w_step WFlush (w_flush_fail k st) in
  w_sent st' <> written ops.
Proof. exists [WWrite [x61]], 1%nat. vm_compute. discriminate. Qed.
