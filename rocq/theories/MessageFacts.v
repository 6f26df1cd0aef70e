(** Framing: loading is exact, truncation is detected, whatever the reader. *)
From Verif Require Import Base Spec BaseFacts Ptr Segment SegmentFacts Struct Message Stream StreamFacts.
From Coq Require Import ZifyBool.
Ltac Zify.zify_post_hook ::= Z.div_mod_to_equations.

  Lemma fdec_FI_nonneg l : 0 <= fdec FI l.
  Proof. unfold fdec. cbn [fsigned]. apply le_dec_range. Qed.

  Lemma unpack_uint32_nonneg b i z : unpack_uint32 b i = Ok z -> 0 <= z.
  Proof.
    unfold unpack_uint32, unpack_from.
    destruct ((i <? 0) || (blen b <? i + 4)); [discriminate|].
    destruct (((if i <? 0 then i + blen b else i) <? 0) || _); [discriminate|].
    destruct ((i <? 0) && _); [discriminate|].
    intros H. apply ok_inj in H. rewrite <- H. apply fdec_FI_nonneg.
  Qed.

  Lemma sumZ_nonneg l : Forall (fun z => 0 <= z) l -> 0 <= sumZ l.
  Proof. induction 1; cbn [sumZ]; lia. Qed.

(** ** Two readers that give the same bytes give the same objects *)
Section sim.
  Context {A B : Type} (ra : Z -> A -> bytes * A) (rb : Z -> B -> bytes * B) (R : A -> B -> Prop).
  Hypothesis Hsim : forall n a b, 0 <= n -> R a b ->
    fst (ra n a) = fst (rb n b) /\ R (snd (ra n a)) (snd (rb n b)).

  Definition rel {X} (x : X * A) (y : X * B) : Prop := fst x = fst y /\ R (snd x) (snd y).

  Ltac rstep n a b Hr :=
    let S1 := fresh "S" in let S2 := fresh "S" in
    destruct (Hsim n a b ltac:(lia) Hr) as [S1 S2];
    destruct (ra n a) as [? ?]; destruct (rb n b) as [? ?]; cbn [fst snd] in S1, S2; subst.

  Lemma load_single_sim a b : R a b -> rel (load_single A ra a) (load_single B rb b).
  Proof.
    intros Hr. unfold load_single, rel. rstep 4 a b Hr.
    destruct (_ <? 4); [split; [reflexivity|assumption]|].
    destruct (unpack_uint32 _ 0) as [z|e] eqn:U; [|split; [reflexivity|assumption]].
    apply unpack_uint32_nonneg in U.
    match goal with H : R ?x ?y |- _ => rstep (z * 8) x y H end.
    destruct (_ <? z * 8); split; (reflexivity || assumption).
  Qed.

  Lemma load_sizes_sim n : forall a b, R a b -> rel (load_sizes A ra n a) (load_sizes B rb n b).
  Proof.
    induction n as [|n IH]; intros a b Hr; unfold rel; cbn [load_sizes].
    - split; [reflexivity|assumption].
    - rstep 4 a b Hr. destruct (_ <? 4); [split; [reflexivity|assumption]|].
      match goal with H : R ?x ?y |- _ => destruct (IH x y H) as [I1 I2];
        destruct (load_sizes A ra n x) as [r1 x1]; destruct (load_sizes B rb n y) as [r2 y1];
        cbn [fst snd] in I1, I2; subst end.
      destruct r2; split; (reflexivity || assumption).
  Qed.

  Lemma load_sizes_nonneg n : forall b l, fst (load_sizes B rb n b) = Ok l -> Forall (fun z => 0 <= z) l.
  Proof.
    induction n as [|n IH]; intros b l; cbn [load_sizes].
    - cbn. intros H. apply ok_inj in H. subst. constructor.
    - destruct (rb 4 b) as [buf b']. destruct (_ <? 4); [discriminate|].
      specialize (IH b'). destruct (load_sizes B rb n b') as [[l'|e] b'']; cbn [fst] in *; [|discriminate].
      intros H. apply ok_inj in H. subst. constructor; [apply fdec_FI_nonneg|apply IH; reflexivity].
  Qed.

  Lemma load_multi_sim n a b : R a b -> rel (load_multi A ra n a) (load_multi B rb n b).
  Proof.
    intros Hr. unfold load_multi, rel.
    destruct (load_sizes_sim (Z.to_nat n) a b Hr) as [I1 I2].
    pose proof (load_sizes_nonneg (Z.to_nat n) b) as NN.
    destruct (load_sizes A ra (Z.to_nat n) a) as [r1 x1];
    destruct (load_sizes B rb (Z.to_nat n) b) as [r2 y1]; cbn [fst snd] in I1, I2, NN; subst.
    destruct r2 as [l|e]; [|split; [reflexivity|assumption]].
    pose proof (sumZ_nonneg _ (NN _ eq_refl)) as S0.
    set (bytes_read := 4 + n * 4).
    assert (M : 0 <= 8 - Z.land bytes_read 7).
    { change 7 with (Z.ones 3). rewrite Z.land_ones by lia. change (2 ^ 3) with 8. lia. }
    set (xa := if negb (Z.land bytes_read 7 =? 0) then snd (ra (8 - Z.land bytes_read 7) x1) else x1).
    set (yb := if negb (Z.land bytes_read 7 =? 0) then snd (rb (8 - Z.land bytes_read 7) y1) else y1).
    assert (RR : R xa yb).
    { subst xa yb. destruct (negb _); [|assumption]. apply Hsim; assumption. }
    clearbody xa yb. rstep (sumZ l * 8) xa yb RR.
    destruct (_ <? sumZ l * 8); split; (reflexivity || assumption).
  Qed.

  Lemma load_message_sim a b : R a b -> rel (load_message A ra a) (load_message B rb b).
  Proof.
    intros Hr. unfold load_message, rel. rstep 4 a b Hr.
    destruct (blen _ =? 0); [split; [reflexivity|assumption]|].
    destruct (blen _ <? 4); [split; [reflexivity|assumption]|].
    destruct (unpack_uint32 _ 0) as [z|e] eqn:U; [|split; [reflexivity|assumption]].
    match goal with H : R ?x ?y |- _ =>
      assert (X : rel (if z + 1 =? 1 then load_single A ra x else load_multi A ra (z + 1) x)
                      (if z + 1 =? 1 then load_single B rb y else load_multi B rb (z + 1) y))
        by (destruct (z + 1 =? 1); [apply load_single_sim|apply load_multi_sim]; assumption)
    end.
    destruct X as [X1 X2].
    match type of X1 with fst ?u = fst ?v => destruct u as [r1 x1]; destruct v as [r2 y1] end.
    cbn [fst snd] in X1, X2. subst. destruct r2; split; (reflexivity || assumption).
  Qed.

  Lemma load_sim a b : R a b -> rel (load A ra a) (load B rb b).
  Proof.
    intros Hr. unfold load, rel. destruct (load_message_sim a b Hr) as [X1 X2].
    destruct (load_message A ra a) as [r1 x1]; destruct (load_message B rb b) as [r2 y1].
    cbn [fst snd] in X1, X2. subst. destruct r2; split; (reflexivity || assumption).
  Qed.

  Lemma load_all_sim fuel : forall a b, R a b -> load_all A ra fuel a = load_all B rb fuel b.
  Proof.
    induction fuel as [|fuel IH]; intros a b Hr; cbn [load_all]; [reflexivity|].
    destruct (load_sim a b Hr) as [X1 X2].
    destruct (load A ra a) as [r1 x1]; destruct (load B rb b) as [r2 y1].
    cbn [fst snd] in X1, X2. subst. destruct r2 as [x|e]; [|reflexivity].
    rewrite (IH x1 y1 X2). reflexivity.
  Qed.
End sim.

(** ** An ideal reader that also counts the bytes asked for *)
Definition cread (n : Z) (st : bytes * Z) : bytes * (bytes * Z) :=
  let (r, c) := st in (firstn (Z.to_nat n) r, (skipn (Z.to_nat n) r, c + n)).

Lemma cread_app a r c n : n = blen a -> cread n (a ++ r, c) = (a, (r, c + blen a)).
Proof.
  intros ->. unfold cread, blen. rewrite Nat2Z.id.
  rewrite firstn_app, Nat.sub_diag, firstn_all, skipn_app, Nat.sub_diag, skipn_all. cbn [firstn skipn app].
  rewrite app_nil_r. reflexivity.
Qed.

Lemma cread_short a c n : blen a <= n -> cread n (a, c) = (a, ([], c + n)).
Proof.
  intros H. unfold cread, blen in *.
  rewrite firstn_all2, skipn_all2 by lia. reflexivity.
Qed.

Lemma unpack_enc x : 0 <= x < 2 ^ 32 -> unpack_uint32 (le_enc 4 x) 0 = Ok x.
Proof.
  intros H. unfold unpack_uint32. rewrite blen_le_enc.
  replace ((0 <? 0) || (Z.of_nat 4 <? 0 + 4)) with false by reflexivity.
  rewrite unpack_from_in by (rewrite ?blen_le_enc; cbn [fsize]; lia).
  change (fsize FI) with (blen (le_enc 4 x)). rewrite sub_all.
  change (le_enc 4 x) with (fenc FI x). rewrite fdec_fenc; [reflexivity|].
  unfold in_fmt, fmin, fmax. cbn [fsigned fsize]. lia.
Qed.

Lemma unpack_dec b : blen b = 4 -> unpack_uint32 b 0 = Ok (le_dec b) /\ 0 <= le_dec b < 2 ^ 32 /\ b = le_enc 4 (le_dec b).
Proof.
  intros H. pose proof (le_dec_range b) as R. rewrite H in R. change (256 ^ 4) with (2 ^ 32) in R.
  assert (E : b = le_enc 4 (le_dec b)).
  { rewrite <- (le_enc_dec b) at 1. f_equal. unfold blen in H. lia. }
  split; [rewrite E at 1; apply unpack_enc; exact R|]. auto.
Qed.

(** ** Sizes *)
Definition enc_sizes (segs : list bytes) : bytes := concat (map (fun b => le_enc 4 (blen b / 8)) segs).

Lemma blen_enc_sizes segs : blen (enc_sizes segs) = 4 * blen segs.
Proof.
  unfold enc_sizes. induction segs as [|b segs IH]; [reflexivity|].
  cbn [map concat]. rewrite blen_app, blen_le_enc, IH, blen_cons. lia.
Qed.

Lemma load_sizes_frame segs : forall rest c,
  Forall (fun b : bytes => blen b mod 8 = 0 /\ blen b / 8 < 2 ^ 32) segs ->
  load_sizes _ cread (length segs) (enc_sizes segs ++ rest, c)
  = (Ok (map (fun b : bytes => blen b / 8) segs), (rest, c + 4 * blen segs)).
Proof.
  induction segs as [|b segs IH]; intros rest c F.
  - cbn. rewrite Z.add_0_r. reflexivity.
  - inversion F as [|? ? [F1 F2] F']; subst.
    cbn [length load_sizes]. unfold enc_sizes. cbn [map concat].
    rewrite <- app_assoc. rewrite cread_app by (rewrite blen_le_enc; reflexivity).
    rewrite blen_le_enc. replace (Z.of_nat 4 <? 4) with false by reflexivity.
    fold (enc_sizes segs). rewrite IH by exact F'.
    f_equal; [|f_equal; rewrite blen_cons; lia].
    do 2 f_equal. pose proof (blen_nonneg b).
    replace (sub (le_enc 4 (blen b / 8)) 0 4) with (le_enc 4 (blen b / 8)) by (symmetry; exact (sub_all (le_enc 4 (blen b / 8)))).
    change (le_enc 4 (blen b / 8)) with (fenc FI (blen b / 8)).
    apply fdec_fenc. unfold in_fmt, fmin, fmax. cbn [fsigned fsize]. lia.
Qed.

Lemma sumZ_sizes segs :
  Forall (fun b : bytes => blen b mod 8 = 0 /\ blen b / 8 < 2 ^ 32) segs ->
  sumZ (map (fun b : bytes => blen b / 8) segs) * 8 = blen (concat segs).
Proof.
  induction 1 as [|b segs [F1 F2] F' IH]; [reflexivity|].
  cbn [map sumZ concat]. rewrite blen_app. lia.
Qed.

Lemma segment_offsets_spec segs : forall off,
  Forall (fun b : bytes => blen b mod 8 = 0 /\ blen b / 8 < 2 ^ 32) segs ->
  segment_offsets (map (fun b : bytes => blen b / 8) segs) off
  = map (fun k => off + prefix_sum segs k) (seq 1 (length segs)).
Proof.
  induction segs as [|b segs IH]; intros off F; [reflexivity|].
  inversion F as [|? ? [F1 F2] F']; subst.
  cbn [map segment_offsets length seq]. f_equal.
  - unfold prefix_sum. cbn [firstn concat]. rewrite app_nil_r. lia.
  - rewrite IH by exact F'. rewrite <- (seq_shift (length segs) 1), map_map. apply map_ext_in.
    intros k Hk. apply in_seq in Hk. unfold prefix_sum. cbn [firstn concat]. rewrite blen_app. lia.
Qed.

Lemma removelast_map {A B} (f : A -> B) l : removelast (map f l) = map f (removelast l).
Proof.
  induction l as [|x [|y l] IH]; [reflexivity|reflexivity|].
  cbn [map removelast] in *. f_equal. exact IH.
Qed.

Lemma removelast_len {A} (l : list A) : length (removelast l) = pred (length l).
Proof.
  induction l as [|x [|y l] IH]; [reflexivity|reflexivity|].
  cbn [removelast length pred] in *. f_equal. rewrite IH. reflexivity.
Qed.

Lemma firstn_removelast {A} (l : list A) k : (k < length l)%nat -> firstn k (removelast l) = firstn k l.
Proof.
  revert k. induction l as [|x [|y l] IH]; intros k H; cbn [length] in *; [lia| |].
  - replace k with O by lia. reflexivity.
  - destruct k as [|k]; [reflexivity|]. cbn [removelast firstn] in *. f_equal. apply IH. lia.
Qed.

Lemma Forall_removelast {A} (P : A -> Prop) l : Forall P l -> Forall P (removelast l).
Proof.
  induction l as [|x [|y l] IH]; intros F; [constructor|constructor|].
  inversion F; subst. change (removelast (x :: y :: l)) with (x :: removelast (y :: l)).
  constructor; [assumption|apply IH; assumption].
Qed.

Lemma offsets_table segs :
  segs <> [] -> Forall (fun b : bytes => blen b mod 8 = 0 /\ blen b / 8 < 2 ^ 32) segs ->
  0 :: segment_offsets (removelast (map (fun b : bytes => blen b / 8) segs)) 0
  = map (prefix_sum segs) (seq 0 (length segs)).
Proof.
  intros N F. rewrite removelast_map.
  rewrite segment_offsets_spec by (apply Forall_removelast; exact F).
  destruct segs as [|b segs]; [congruence|].
  rewrite removelast_len. cbn [length pred seq map]. f_equal.
  apply map_ext_in. intros k Hk. apply in_seq in Hk. unfold prefix_sum.
  rewrite firstn_removelast by (cbn [length]; lia). lia.
Qed.

Lemma land7 x : Z.land x 7 = x mod 8.
Proof. change 7 with (Z.ones 3). rewrite Z.land_ones by lia. reflexivity. Qed.

(** padding computed by the code = padding of the format *)
Lemma padding_len n : 0 <= n -> (4 + n * 4) mod 8 = if Z.even n then 4 else 0.
Proof.
  intros H. destruct (Z.even n) eqn:E.
  - apply Z.even_spec in E as [k ->]. lia.
  - rewrite <- Z.negb_odd in E. apply Bool.negb_false_iff in E. apply Z.odd_spec in E as [k ->]. lia.
Qed.

Lemma load_message_frame segs pad rest c :
  frameable segs -> pad_ok pad segs ->
  load_message _ cread (frame_with pad segs ++ rest, c)
  = (init_from_buffer (mem_of segs) 0 0 1, (rest, c + blen (frame_with pad segs))).
Proof.
  intros (N & L & F) P. unfold load_message, frame_with. rewrite <- !app_assoc.
  assert (N1 : 1 <= blen segs).
  { destruct segs; [congruence|]. rewrite blen_cons. pose proof (blen_nonneg segs). lia. }
  rewrite cread_app by (rewrite blen_le_enc; reflexivity).
  rewrite blen_le_enc. change (Z.of_nat 4) with 4. cbn [Z.eqb Z.ltb Z.compare Pos.compare Pos.compare_cont].
  rewrite unpack_enc by lia. replace (blen segs - 1 + 1) with (blen segs) by lia.
  rewrite !blen_app, blen_le_enc. fold (enc_sizes segs). rewrite blen_enc_sizes.
  change (Z.of_nat 4) with 4.
  unfold pad_ok in P.
  destruct (Z.eqb_spec (blen segs) 1) as [E|E].
  - (* one segment *)
    destruct segs as [|b [|b2 segs]]; [congruence| |
      rewrite !blen_cons in E; pose proof (blen_nonneg segs); lia].
    inversion F as [|? ? [F1 F2] _]; subst.
    change (Z.even (blen [b])) with false in P. cbn match in P. apply blen_0_nil in P. subst pad.
    unfold load_single, enc_sizes. cbn [map concat app]. rewrite !app_nil_r.
    rewrite cread_app by (rewrite blen_le_enc; reflexivity).
    rewrite blen_le_enc. change (Z.of_nat 4 <? 4) with false. cbn match.
    pose proof (blen_nonneg b). rewrite unpack_enc by lia.
    rewrite cread_app by lia.
    replace (blen b <? blen b / 8 * 8) with false by (symmetry; lia).
    cbn [mem_of]. change (blen (@nil byte)) with 0. f_equal. f_equal.
    change (Z.of_nat 4) with 4. change (blen [b]) with 1. lia.
  - (* several segments *)
    unfold load_multi. replace (Z.to_nat (blen segs)) with (length segs) by (unfold blen; lia).
    rewrite load_sizes_frame by exact F.
    rewrite land7, padding_len by lia.
    assert (X : (if negb ((if Z.even (blen segs) then 4 else 0) =? 0)
                 then snd (cread (8 - (if Z.even (blen segs) then 4 else 0))
                            (pad ++ concat segs ++ rest, c + 4 + 4 * blen segs))
                 else (pad ++ concat segs ++ rest, c + 4 + 4 * blen segs))
                = (concat segs ++ rest, c + 4 + 4 * blen segs + blen pad)).
    { destruct (Z.even (blen segs)); cbn [Z.eqb negb].
      - rewrite cread_app by lia. reflexivity.
      - apply blen_0_nil in P. subst pad. cbn [app]. change (blen (@nil byte)) with 0.
        f_equal. lia. }
    rewrite X. rewrite sumZ_sizes by exact F.
    rewrite cread_app by reflexivity.
    rewrite Z.ltb_irrefl.
    rewrite offsets_table by assumption.
    f_equal.
    + destruct segs as [|b [|b2 segs]]; [congruence| |reflexivity].
      exfalso. apply E. reflexivity.
    + f_equal. lia.
Qed.

(** ** Truncation *)
Lemma firstn_le_all {A} (l : list A) n : (length l <= n)%nat -> firstn n l = l.
Proof. apply firstn_all2. Qed.

(** Reading [n = blen a] bytes from a prefix [pre] of [a ++ r] *)
Lemma cread_prefix a r pre more c :
  pre ++ more = a ++ r ->
  (blen pre < blen a /\ cread (blen a) (pre, c) = (pre, ([], c + blen a))) \/
  (exists pre', pre = a ++ pre' /\ pre' ++ more = r /\ cread (blen a) (pre, c) = (a, (pre', c + blen a))).
Proof.
  intros E. destruct (Z.lt_ge_cases (blen pre) (blen a)) as [H|H].
  - left. split; [exact H|]. apply cread_short. lia.
  - right. exists (skipn (length a) pre).
    assert (P : pre = a ++ skipn (length a) pre).
    { rewrite <- (firstn_skipn (length a) pre) at 1. f_equal.
      assert (X : firstn (length a) (pre ++ more) = firstn (length a) (a ++ r)) by (rewrite E; reflexivity).
      rewrite !firstn_app_le in X by (unfold blen in H; lia). rewrite firstn_all in X. exact X. }
    split; [exact P|]. split.
    + rewrite P in E. rewrite <- app_assoc in E. apply app_inv_head in E. exact E.
    + rewrite P at 1. apply cread_app. reflexivity.
Qed.

Lemma load_sizes_prefix segs : forall r pre more c,
  Forall (fun b : bytes => blen b mod 8 = 0 /\ blen b / 8 < 2 ^ 32) segs ->
  pre ++ more = enc_sizes segs ++ r ->
  fst (load_sizes _ cread (length segs) (pre, c)) = Err ValueError \/
  (exists pre', pre' ++ more = r /\
     load_sizes _ cread (length segs) (pre, c)
     = (Ok (map (fun b : bytes => blen b / 8) segs), (pre', c + 4 * blen segs))).
Proof.
  intros r pre more c F E.
  destruct (Z.lt_ge_cases (blen pre) (blen (enc_sizes segs))) as [H|H].
  - left. revert r pre more c E H. induction F as [|b segs [F1 F2] F' IH]; intros r pre more c E H.
    + cbn in H. pose proof (blen_nonneg pre). lia.
    + cbn [length load_sizes]. unfold enc_sizes in E. cbn [map concat] in E. rewrite <- app_assoc in E.
      destruct (cread_prefix _ _ _ _ c E) as [[S1 S2]|(pre' & -> & E' & S2)];
        rewrite blen_le_enc in S2; change (Z.of_nat 4) with 4 in S2; rewrite S2.
      * rewrite blen_le_enc in S1. replace (blen pre <? 4) with true by (symmetry; lia). reflexivity.
      * rewrite blen_le_enc. change (Z.of_nat 4 <? 4) with false. cbn match.
        assert (H' : blen pre' < blen (enc_sizes segs)).
        { unfold enc_sizes in H. cbn [map concat] in H. rewrite !blen_app in H.
          unfold enc_sizes. lia. }
        specialize (IH r pre' more (c + 4) E' H').
        destruct (load_sizes _ cread (length segs) (pre', c + 4)) as [[l|e] st]; cbn [fst] in *; [discriminate|].
        exact IH.
  - right. destruct (cread_prefix _ _ _ _ c E) as [[S1 S2]|(pre' & -> & E' & S2)]; [lia|].
    exists pre'. split; [exact E'|]. apply load_sizes_frame. exact F.
Qed.

Lemma load_message_truncated segs pad pre more c :
  frameable segs -> pad_ok pad segs -> concat segs <> [] ->
  pre ++ more = frame_with pad segs -> more <> [] ->
  fst (load_message _ cread (pre, c)) = Err (match pre with [] => EOFError | _ => ValueError end).
Proof.
  intros (N & L & F) P NE E M. unfold frame_with in E. fold (enc_sizes segs) in E.
  assert (N1 : 1 <= blen segs).
  { destruct segs; [congruence|]. rewrite blen_cons. pose proof (blen_nonneg segs). lia. }
  unfold load_message.
  destruct (cread_prefix _ _ _ _ c E) as [[S1 S2]|(p1 & -> & E1 & S2)];
    rewrite blen_le_enc in S2; change (Z.of_nat 4) with 4 in S2; rewrite S2; clear S2.
  { rewrite blen_le_enc in S1. destruct pre as [|x pre]; [reflexivity|].
    replace (blen (x :: pre) =? 0) with false
      by (symmetry; rewrite blen_cons; pose proof (blen_nonneg pre); lia).
    replace (blen (x :: pre) <? 4) with true by (symmetry; lia). reflexivity. }
  rewrite blen_le_enc. change (Z.of_nat 4) with 4.
  cbn [Z.eqb Z.ltb Z.compare Pos.compare Pos.compare_cont].
  rewrite unpack_enc by lia. replace (blen segs - 1 + 1) with (blen segs) by lia.
  replace (match le_enc 4 (blen segs - 1) ++ p1 with [] => EOFError | _ => ValueError end)
    with ValueError by reflexivity.
  unfold pad_ok in P.
  destruct (Z.eqb_spec (blen segs) 1) as [Eq|Ne].
  - destruct segs as [|b [|b2 segs]]; [congruence| |
      rewrite !blen_cons in Eq; pose proof (blen_nonneg segs); lia].
    inversion F as [|? ? [F1 F2] _]; subst.
    change (Z.even (blen [b])) with false in P. cbn match in P. apply blen_0_nil in P. subst pad.
    unfold enc_sizes in E1. cbn [map concat app] in E1. rewrite !app_nil_r in E1.
    unfold load_single.
    destruct (cread_prefix _ _ _ _ (c + 4) E1) as [[S1 S2]|(p2 & -> & E2 & S2)];
      rewrite blen_le_enc in S2; change (Z.of_nat 4) with 4 in S2; rewrite S2; clear S2.
    + rewrite blen_le_enc in S1. replace (blen p1 <? 4) with true by (symmetry; lia). reflexivity.
    + rewrite blen_le_enc. change (Z.of_nat 4 <? 4) with false. cbn match.
      pose proof (blen_nonneg b). rewrite unpack_enc by lia.
      assert (LT : blen p2 < blen b).
      { rewrite <- E2, blen_app. destruct more as [|x more]; [congruence|].
        rewrite blen_cons. pose proof (blen_nonneg more). lia. }
      rewrite cread_short by lia.
      replace (blen p2 <? blen b / 8 * 8) with true by (symmetry; lia). reflexivity.
  - unfold load_multi. replace (Z.to_nat (blen segs)) with (length segs) by (unfold blen; lia).
    destruct (load_sizes_prefix segs _ _ _ (c + 4) F E1) as [S|(p2 & E2 & S)].
    { destruct (load_sizes _ cread (length segs) (p1, c + 4)) as [[l|e] st]; cbn [fst] in *; [discriminate|].
      injection S as ->. reflexivity. }
    rewrite S. rewrite land7, padding_len by lia. rewrite sumZ_sizes by exact F.
    assert (X : exists p3 c3, (if negb ((if Z.even (blen segs) then 4 else 0) =? 0)
                 then snd (cread (8 - (if Z.even (blen segs) then 4 else 0)) (p2, c + 4 + 4 * blen segs))
                 else (p2, c + 4 + 4 * blen segs)) = (p3, c3) /\ blen p3 < blen (concat segs)).
    { assert (NEL : 0 < blen (concat segs)).
      { destruct (concat segs) as [|x l]; [congruence|]. rewrite blen_cons. pose proof (blen_nonneg l). lia. }
      destruct (cread_prefix _ _ _ _ (c + 4 + 4 * blen segs) E2) as [[S1 S2]|(p3 & -> & E3 & S2)];
        rewrite P in *.
      - destruct (Z.even (blen segs)); cbn [Z.eqb negb].
        + change (8 - 4) with 4. rewrite S2. exists [], (c + 4 + 4 * blen segs + 4).
          split; [reflexivity|]. exact NEL.
        + pose proof (blen_nonneg p2). lia.
      - assert (LT : blen p3 < blen (concat segs)).
        { rewrite <- E3, blen_app. destruct more as [|x more]; [congruence|].
          rewrite blen_cons. pose proof (blen_nonneg more). lia. }
        destruct (Z.even (blen segs)); cbn [Z.eqb negb].
        + change (8 - 4) with 4. rewrite S2. exists p3, (c + 4 + 4 * blen segs + 4). auto.
        + apply blen_0_nil in P. subst pad. exists p3, (c + 4 + 4 * blen segs). auto. }
    destruct X as (p3 & c3 & X & LT). rewrite X. rewrite cread_short by lia.
    replace (blen p3 <? blen (concat segs)) with true by (symmetry; lia). reflexivity.
Qed.

(** When all the segments are empty there is no root pointer: the message is
    refused, but with AssertionError. *)
Lemma init_empty offs : init_from_buffer {| sbuf := []; soffs := offs |} 0 0 1 = Err AssertionError.
Proof. reflexivity. Qed.

Lemma concat_nil_blen (segs : list bytes) : concat segs = [] -> sumZ (map (fun b : bytes => blen b / 8) segs) = 0.
Proof.
  induction segs as [|b segs IH]; [reflexivity|]. cbn [concat map sumZ]. intros H.
  apply app_eq_nil in H. destruct H as [-> H]. rewrite (IH H). reflexivity.
Qed.

Lemma load_message_empty segs pad pre more c :
  frameable segs -> pad_ok pad segs -> concat segs = [] ->
  pre ++ more = frame_with pad segs ->
  exists e, fst (load_message _ cread (pre, c)) = Err e /\
    (pre = [] -> e = EOFError) /\ (pre <> [] -> e = ValueError \/ e = AssertionError).
Proof.
  intros (N & L & F) P NE E. unfold frame_with in E. fold (enc_sizes segs) in E. rewrite NE, app_nil_r in E.
  assert (N1 : 1 <= blen segs).
  { destruct segs; [congruence|]. rewrite blen_cons. pose proof (blen_nonneg segs). lia. }
  unfold load_message.
  destruct (cread_prefix _ _ _ _ c E) as [[S1 S2]|(p1 & -> & E1 & S2)];
    rewrite blen_le_enc in S2; change (Z.of_nat 4) with 4 in S2; rewrite S2; clear S2.
  { rewrite blen_le_enc in S1. destruct pre as [|x pre].
    - exists EOFError. repeat split; congruence.
    - exists ValueError.
      replace (blen (x :: pre) =? 0) with false
        by (symmetry; rewrite blen_cons; pose proof (blen_nonneg pre); lia).
      replace (blen (x :: pre) <? 4) with true by (symmetry; lia).
      split; [reflexivity|]. split; [discriminate|auto]. }
  rewrite blen_le_enc. change (Z.of_nat 4) with 4.
  cbn [Z.eqb Z.ltb Z.compare Pos.compare Pos.compare_cont].
  rewrite unpack_enc by lia. replace (blen segs - 1 + 1) with (blen segs) by lia.
  assert (Q : forall e, e = ValueError \/ e = AssertionError ->
    (le_enc 4 (blen segs - 1) ++ p1 = [] -> e = EOFError) /\
    (le_enc 4 (blen segs - 1) ++ p1 <> [] -> e = ValueError \/ e = AssertionError))
    by (intros e He; split; [discriminate|auto]).
  unfold pad_ok in P.
  destruct (Z.eqb_spec (blen segs) 1) as [Eq|Ne].
  - destruct segs as [|b [|b2 segs]]; [congruence| |
      rewrite !blen_cons in Eq; pose proof (blen_nonneg segs); lia].
    cbn [concat] in NE. rewrite app_nil_r in NE. subst b.
    change (Z.even (blen [[] : bytes])) with false in P. cbn match in P. apply blen_0_nil in P. subst pad.
    unfold enc_sizes in E1. cbn [map concat app] in E1. rewrite !app_nil_r in E1.
    unfold load_single.
    rewrite <- (app_nil_r (le_enc 4 _)) in E1.
    destruct (cread_prefix _ _ _ _ (c + 4) E1) as [[S1 S2]|(p2 & -> & E2 & S2)];
      rewrite blen_le_enc in S2; change (Z.of_nat 4) with 4 in S2; rewrite S2; clear S2.
    + rewrite blen_le_enc in S1. replace (blen p1 <? 4) with true by (symmetry; lia).
      exists ValueError. split; [reflexivity|]. apply Q. auto.
    + rewrite blen_le_enc. change (Z.of_nat 4 <? 4) with false. cbn match.
      rewrite unpack_enc by (change (blen (@nil byte)) with 0; lia).
      change (blen (@nil byte) / 8 * 8) with 0. change (cread 0 (p2, c + 4 + 4)) with (@nil byte, (p2, c + 4 + 4 + 0)).
      change (blen [] <? 0) with false. cbn match. exists AssertionError. split; [reflexivity|].
      apply Q. auto.
  - unfold load_multi. replace (Z.to_nat (blen segs)) with (length segs) by (unfold blen; lia).
    destruct (load_sizes_prefix segs _ _ _ (c + 4) F E1) as [S|(p2 & E2 & S)].
    { destruct (load_sizes _ cread (length segs) (p1, c + 4)) as [[l|e] st]; cbn [fst] in *; [discriminate|].
      injection S as ->. exists ValueError. split; [reflexivity|]. apply Q. auto. }
    rewrite S. rewrite (concat_nil_blen _ NE). change (0 * 8) with 0.
    match goal with |- context [cread 0 ?st] => destruct st as [p3 c3] end.
    change (cread 0 (p3, c3)) with (@nil byte, (p3, c3 + 0)).
    change (blen [] <? 0) with false. cbn match. exists AssertionError. split; [reflexivity|].
    apply Q. auto.
Qed.

(** ** Soundness: whatever is accepted is a frame *)
Lemma cread_full n r c b st : 0 <= n -> cread n (r, c) = (b, st) -> n <= blen b ->
  blen b = n /\ exists r', r = b ++ r' /\ st = (r', c + n).
Proof.
  intros Hn H Hb. unfold cread in H. injection H as <- <-. rewrite blen_firstn in *.
  split; [lia|]. exists (skipn (Z.to_nat n) r). rewrite firstn_skipn. auto.
Qed.

Lemma load_sizes_sound n : forall r c l st,
  load_sizes _ cread n (r, c) = (Ok l, st) ->
  length l = n /\ Forall (fun z => 0 <= z < 2 ^ 32) l /\
  exists r', r = concat (map (fun z => le_enc 4 z) l) ++ r' /\ st = (r', c + 4 * Z.of_nat n).
Proof.
  induction n as [|n IH]; intros r c l st H; cbn [load_sizes] in H.
  - injection H as <- <-. split; [reflexivity|]. split; [constructor|]. exists r. split; [reflexivity|].
    f_equal. lia.
  - destruct (cread 4 (r, c)) as [b st1] eqn:C. destruct (blen b <? 4) eqn:B; [discriminate|].
    destruct (cread_full 4 r c b st1 ltac:(lia) C ltac:(lia)) as (B4 & r1 & -> & ->).
    destruct (load_sizes _ cread n (r1, c + 4)) as [[l1|e] st2] eqn:LS; [|discriminate].
    destruct (IH _ _ _ _ LS) as (I1 & I2 & r2 & -> & ->).
    injection H as <- <-.
    assert (FD : fdec FI (sub b 0 4) = le_dec b).
    { rewrite <- B4, sub_all. reflexivity. }
    rewrite FD. destruct (unpack_dec b B4) as (_ & U2 & U3).
    split; [cbn; lia|]. split; [constructor; assumption|].
    exists r2. cbn [map concat]. rewrite <- U3, <- app_assoc. split; [reflexivity|].
    replace (c + 4 * Z.of_nat (S n)) with (c + 4 + 4 * Z.of_nat n) by lia. reflexivity.
Qed.

(** Cut a buffer in segments of the given sizes (in words). *)
Fixpoint cut (sizes : list Z) (b : bytes) : list bytes :=
  match sizes with
  | [] => []
  | z :: r => firstn (Z.to_nat (8 * z)) b :: cut r (skipn (Z.to_nat (8 * z)) b)
  end.

Lemma cut_spec sizes : forall b,
  Forall (fun z => 0 <= z < 2 ^ 32) sizes -> blen b = sumZ sizes * 8 ->
  concat (cut sizes b) = b /\ map (fun b : bytes => blen b / 8) (cut sizes b) = sizes /\
  Forall (fun b : bytes => blen b mod 8 = 0 /\ blen b / 8 < 2 ^ 32) (cut sizes b) /\
  length (cut sizes b) = length sizes.
Proof.
  induction sizes as [|z sizes IH]; intros b F B.
  - cbn in *. destruct b; [auto|]. rewrite blen_cons in B. pose proof (blen_nonneg b0). lia.
  - inversion F as [|? ? Hz F']; subst. cbn [sumZ] in B.
    assert (S0 : 0 <= sumZ sizes).
    { apply sumZ_nonneg. eapply Forall_impl; [|exact F']. cbn. intros; lia. }
    destruct (IH (skipn (Z.to_nat (8 * z)) b) F') as (I1 & I2 & I3 & I4).
    { rewrite blen_skipn. lia. }
    assert (LF : blen (firstn (Z.to_nat (8 * z)) b) = 8 * z) by (rewrite blen_firstn; lia).
    cbn [cut concat map length]. rewrite I1, I2, I4, LF. split; [apply firstn_skipn|].
    split; [f_equal; lia|]. split; [|reflexivity]. constructor; [rewrite LF; lia|exact I3].
Qed.

Lemma init_root_ok s o : init_from_buffer s 0 0 1 = Ok o -> 8 <= blen (sbuf s).
Proof.
  unfold init_from_buffer. cbn [o_off o_ptrs].
  destruct (_ <=? _); cbn [py_assert bind]; [|discriminate].
  destruct (0 + 0 * 8 + 1 * 8 <=? blen (sbuf s)) eqn:E; cbn [py_assert bind]; [lia|discriminate].
Qed.

Lemma load_message_sound r c o st :
  load_message _ cread (r, c) = (Ok o, st) ->
  exists segs pad rest,
    frameable segs /\ pad_ok pad segs /\ r = frame_with pad segs ++ rest /\
    st = (rest, c + blen (frame_with pad segs)) /\
    init_from_buffer (mem_of segs) 0 0 1 = Ok o.
Proof.
  intros H. unfold load_message in H.
  destruct (cread 4 (r, c)) as [b st1] eqn:C.
  destruct (blen b =? 0) eqn:B0; [discriminate|]. destruct (blen b <? 4) eqn:B; [discriminate|].
  destruct (cread_full 4 r c b st1 ltac:(lia) C ltac:(lia)) as (B4 & r1 & -> & ->).
  destruct (unpack_dec b B4) as (U1 & U2 & U3). rewrite U1 in H.
  destruct (Z.eqb_spec (le_dec b + 1) 1) as [E1|E1].
  - unfold load_single in H.
    destruct (cread 4 (r1, c + 4)) as [b2 st2] eqn:C2.
    destruct (blen b2 <? 4) eqn:B2; [discriminate|].
    destruct (cread_full 4 r1 (c + 4) b2 st2 ltac:(lia) C2 ltac:(lia)) as (B24 & r2 & -> & ->).
    destruct (unpack_dec b2 B24) as (V1 & V2 & V3). rewrite V1 in H.
    destruct (cread (le_dec b2 * 8) (r2, c + 4 + 4)) as [b3 st3] eqn:C3.
    destruct (blen b3 <? le_dec b2 * 8) eqn:B3; [discriminate|].
    destruct (cread_full (le_dec b2 * 8) r2 _ b3 st3 ltac:(lia) C3 ltac:(lia)) as (B34 & r3 & -> & ->).
    injection H as H <-.
    exists [b3], [], r3.
    assert (FR : frame_with [] [b3] = b ++ b2 ++ b3).
    { unfold frame_with. cbn [map concat app]. rewrite !app_nil_r.
      replace (blen [b3] - 1) with (le_dec b) by (change (blen [b3]) with 1; lia).
      replace (blen b3 / 8) with (le_dec b2) by lia. rewrite <- U3, <- V3. reflexivity. }
    split. { split; [congruence|]. split; [change (blen [b3]) with 1; lia|].
             constructor; [rewrite B34; lia|constructor]. }
    split; [reflexivity|]. split; [rewrite FR, <- !app_assoc; reflexivity|].
    split; [rewrite FR, !blen_app; f_equal; lia|]. exact H.
  - set (n := le_dec b + 1) in *. unfold load_multi in H.
    destruct (load_sizes _ cread (Z.to_nat n) (r1, c + 4)) as [[l|e] st2] eqn:LS; [|discriminate].
    destruct (load_sizes_sound _ _ _ _ _ LS) as (L1 & L2 & r2 & -> & ->).
    rewrite land7, padding_len in H by lia.
    assert (S0 : 0 <= sumZ l).
    { apply sumZ_nonneg. eapply Forall_impl; [|exact L2]. cbn. intros; lia. }
    set (st3 := if negb ((if Z.even n then 4 else 0) =? 0) then _ else _) in H.
    destruct (cread (sumZ l * 8) st3) as [b3 st4] eqn:C3.
    destruct (blen b3 <? sumZ l * 8) eqn:B3; [discriminate|].
    injection H as H <-.
    assert (S8 : 8 <= blen b3).
    { apply init_root_ok in H. cbn [sbuf] in H. exact H. }
    assert (X : exists pad r3, r2 = pad ++ r3 /\ blen pad = (if Z.even n then 4 else 0) /\
                st3 = (r3, c + 4 + 4 * Z.of_nat (Z.to_nat n) + (if Z.even n then 4 else 0))).
    { subst st3. destruct (Z.even n); cbn [Z.eqb negb] in *.
      - exists (firstn 4 r2), (skipn 4 r2). split; [symmetry; apply firstn_skipn|].
        assert (LL : (4 <= length r2)%nat).
        { destruct (Nat.le_gt_cases 4 (length r2)) as [G|G]; [exact G|].
          unfold cread in C3. cbn [snd] in C3. rewrite skipn_all2 in C3 by (change (Z.to_nat (8 - 4)) with 4%nat; lia).
          rewrite firstn_nil in C3. injection C3 as <- <-. cbn in S8. lia. }
        split; [|reflexivity]. unfold blen. rewrite firstn_length. lia.
      - exists [], r2. split; [reflexivity|]. split; [reflexivity|]. f_equal. lia. }
    destruct X as (pad & r3 & -> & PL & ->).
    destruct (cread_full (sumZ l * 8) r3 _ b3 st4 ltac:(lia) C3 ltac:(lia)) as (B34 & r4 & -> & ->).
    destruct (cut_spec l b3 L2 B34) as (T1 & T2 & T3 & T4).
    assert (BL : blen (cut l b3) = n) by (unfold blen; lia).
    exists (cut l b3), pad, r4.
    assert (FR : frame_with pad (cut l b3) = b ++ concat (map (fun z => le_enc 4 z) l) ++ pad ++ b3).
    { unfold frame_with. rewrite T1, BL. f_equal.
      - rewrite U3 at 1. f_equal. subst n. lia.
      - f_equal. rewrite <- T2 at 2. rewrite map_map. reflexivity. }
    assert (NN : cut l b3 <> []).
    { intros X. rewrite X in BL. change (blen (@nil bytes)) with 0 in BL. lia. }
    assert (LC : blen (concat (map (fun z => le_enc 4 z) l)) = 4 * n).
    { rewrite <- BL, <- blen_enc_sizes. unfold enc_sizes. rewrite <- T2 at 1. rewrite map_map. reflexivity. }
    split. { split; [exact NN|]. split; [subst n; lia|exact T3]. }
    split; [unfold pad_ok; rewrite BL; exact PL|].
    split; [rewrite FR, <- !app_assoc; reflexivity|].
    split; [rewrite FR, !blen_app, LC; f_equal; lia|].
    replace (mem_of (cut l b3))
      with {| sbuf := b3; soffs := Some (0 :: segment_offsets (removelast l) 0) |}; [exact H|].
    rewrite <- T2 at 1. rewrite offsets_table by assumption.
    assert (M : mem_of (cut l b3) = flat (cut l b3)).
    { destruct (cut l b3) as [|x [|y q]]; [congruence| |reflexivity].
      change (blen [x]) with 1 in BL. lia. }
    rewrite M. unfold flat. rewrite T1. reflexivity.
Qed.
