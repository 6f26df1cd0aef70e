(** The compiled loader against the pure one. *)
From Verif Require Import Base BaseFacts Spec Ptr PtrFacts Segment SegmentFacts Builder Copy Endof Struct List Message
  MessageFacts Enc EncFacts CRead CReadSpec CReadFacts BuilderC CLoad.
From Coq Require Import ZifyBool.
Ltac Zify.zify_post_hook ::= Z.div_mod_to_equations.

Lemma wrap32_small x : - 2 ^ 31 <= x < 2 ^ 31 -> wrap32 x = x.
Proof. intros. unfold wrap32. apply (to_signed_mod 32); lia. Qed.
Lemma wrap32_range x : - 2 ^ 31 <= wrap32 x < 2 ^ 31.
Proof. unfold wrap32. apply (to_signed_range 32); lia. Qed.
Lemma wrap32_mod x : wrap32 x mod 2 ^ 32 = x mod 2 ^ 32.
Proof. unfold wrap32. rewrite to_signed_mod_eq by lia. apply Z.mod_mod. lia. Qed.
Lemma wrap32_eq x y : x mod 2 ^ 32 = y mod 2 ^ 32 -> wrap32 x = wrap32 y.
Proof. unfold wrap32. intros ->. reflexivity. Qed.
Lemma wrap32_mul x y : wrap32 (wrap32 x * y) = wrap32 (x * y).
Proof. apply wrap32_eq. rewrite <- Zmult_mod_idemp_l, wrap32_mod, Zmult_mod_idemp_l. reflexivity. Qed.

Lemma to_int_spec x : to_int x = if (- 2 ^ 31 <=? x) && (x <? 2 ^ 31) then Ok x else Err OverflowError.
Proof.
  unfold to_int, in_fmtb, fmin, fmax. cbn [fsigned fsize].
  destruct (_ && _) eqn:A, ((- 2 ^ 31 <=? x) && _) eqn:B; try reflexivity; lia.
Qed.

Lemma c_init_root s : c_init_from_buffer s 0 0 1 = init_from_buffer s 0 0 1.
Proof. reflexivity. Qed.

Lemma unpack_range b u : unpack_uint32 b 0 = Ok u -> 0 <= u < 2 ^ 32.
Proof.
  unfold unpack_uint32. destruct (_ || _) eqn:E; [discriminate|].
  rewrite unpack_from_in by (cbn [fsize]; lia). intros H. apply ok_inj in H. subst u.
  assert (L : blen (sub b 0 (fsize FI)) = fsize FI) by (cbn [fsize] in *; rewrite blen_sub; lia).
  pose proof (fdec_range FI _ L) as R. unfold in_fmt, fmin, fmax in R. cbn [fsigned fsize] in R |- *. lia.
Qed.

Lemma offsets_small sizes : forall o, 0 <= o -> Forall (fun z => 0 <= z) sizes -> o + sumZ sizes * 8 < 2 ^ 31 ->
  c_segment_offsets sizes o = segment_offsets sizes o.
Proof.
  induction sizes as [|z r IH]; intros o Ho F B; cbn [c_segment_offsets segment_offsets]; [reflexivity|].
  inversion F; subst. cbn [sumZ] in B. pose proof (sumZ_nonneg r ltac:(assumption)).
  rewrite (wrap32_small (z * 8)), wrap32_small by lia. rewrite IH; [reflexivity|lia|assumption|lia].
Qed.

Lemma sumZ_removelast l : Forall (fun z => 0 <= z) l -> sumZ (removelast l) <= sumZ l.
Proof.
  induction 1 as [|z r Hz F IH]; [reflexivity|]. destruct r as [|y r]; [cbn; lia|].
  change (sumZ (removelast (z :: y :: r))) with (z + sumZ (removelast (y :: r))). cbn [sumZ] in *. lia.
Qed.

Section reader.
  Context {St : Type} (read : Z -> St -> bytes * St).

  (** number of segments of a loaded message *)
  Definition nsegs (o : obj) : Z := match soffs (o_seg o) with None => 1 | Some t => blen t end.

  Lemma load_sizes_len n : forall st l st', load_sizes St read n st = (Ok l, st') -> length l = n.
  Proof.
    induction n as [|n IH]; intros st l st'; cbn [load_sizes].
    - intros H. apply (f_equal fst) in H. cbn [fst] in H. apply ok_inj in H. subst. reflexivity.
    - destruct (read 4 st) as [b st1]. destruct (_ <? 4); [discriminate|].
      destruct (load_sizes St read n st1) as [[l1|e] st2] eqn:L; [|discriminate].
      intros H. apply (f_equal fst) in H. cbn [fst] in H. apply ok_inj in H. subst l. cbn [length].
      f_equal. eapply IH; eauto.
  Qed.

  Lemma segment_offsets_len l : forall o, length (segment_offsets l o) = length l.
  Proof. induction l as [|z r IH]; intros o; cbn; [reflexivity|]. rewrite IH. reflexivity. Qed.

  Lemma load_single_eq st s st' : load_single St read st = (Ok s, st') -> blen (sbuf s) < 2 ^ 31 ->
    c_load_single St read st = (Ok s, st').
  Proof.
    unfold load_single, c_load_single. destruct (read 4 st) as [b st1].
    destruct (_ <? 4); [discriminate|]. destruct (unpack_uint32 b 0) as [u|] eqn:U; [|discriminate].
    apply unpack_range in U. rewrite wrap32_mul.
    destruct (read (u * 8) st1) as [b2 st2] eqn:R. destruct (blen b2 <? u * 8) eqn:L; [discriminate|].
    intros E B. pose proof (f_equal fst E) as E1. cbn [fst] in E1. apply ok_inj in E1. subst s. cbn [sbuf] in B.
    rewrite wrap32_small by lia. rewrite R, L. exact E.
  Qed.

  Lemma land7_wrap x : Z.land (wrap32 x) 7 = Z.land x 7.
  Proof.
    rewrite !land7. pose proof (wrap32_mod x) as W.
    assert (E : forall y, y mod 8 = (y mod 2 ^ 32) mod 8).
    { intros y. change (2 ^ 32) with (8 * 2 ^ 29). rewrite Z.rem_mul_r by lia. lia. }
    rewrite (E (wrap32 x)), (E x), W. reflexivity.
  Qed.

  Lemma load_multi_eq n st s st' : load_multi St read n st = (Ok s, st') -> blen (sbuf s) < 2 ^ 31 ->
    c_load_multi St read n st = (Ok s, st').
  Proof.
    unfold load_multi, c_load_multi. destruct (load_sizes St read (Z.to_nat n) st) as [[l|] st1] eqn:LS; [|discriminate].
    pose proof (load_sizes_nonneg read (Z.to_nat n) st l) as NN. rewrite LS in NN. specialize (NN eq_refl).
    pose proof (sumZ_nonneg l NN).
    assert (LW : Z.land (wrap32 (4 + wrap32 (n * 4))) 7 = Z.land (4 + n * 4) 7).
    { rewrite land7_wrap, !land7. pose proof (wrap32_mod (n * 4)) as W.
      assert (E : forall y, y mod 8 = (y mod 2 ^ 32) mod 8).
      { intros y. change (2 ^ 32) with (8 * 2 ^ 29). rewrite Z.rem_mul_r by lia. lia. }
      rewrite (Z.add_mod 4 (wrap32 _)), (Z.add_mod 4 (n * 4)) by lia. rewrite (E (wrap32 _)), W, <- E. reflexivity. }
    rewrite LW. match goal with |- context [if negb ?c then ?a else ?b] => set (st2 := if negb c then a else b) end. clearbody st2.
    destruct (read (sumZ l * 8) st2) as [b st3] eqn:R. destruct (blen b <? sumZ l * 8) eqn:L; [discriminate|].
    intros E B. pose proof (f_equal fst E) as E1. cbn [fst] in E1. apply ok_inj in E1. subst s. cbn [sbuf] in B.
    rewrite to_int_spec. replace ((- 2 ^ 31 <=? sumZ l * 8) && _) with true by lia. rewrite R, L.
    rewrite offsets_small; [exact E|lia| |].
    - apply Forall_removelast. exact NN.
    - pose proof (sumZ_removelast l NN). lia.
  Qed.

  Lemma load_multi_nsegs n st s st' : 1 <= n -> load_multi St read n st = (Ok s, st') ->
    exists t, soffs s = Some t /\ blen t = n.
  Proof.
    intros Hn. unfold load_multi. destruct (load_sizes St read (Z.to_nat n) st) as [[l|] st1] eqn:LS; [|discriminate].
    apply load_sizes_len in LS. destruct (read (sumZ l * 8) _) as [b st3].
    destruct (blen b <? sumZ l * 8); [discriminate|]. intros E. apply (f_equal fst) in E. cbn [fst] in E.
    apply ok_inj in E. subst s. cbn [soffs]. eexists. split; [reflexivity|].
    unfold blen. cbn [length]. rewrite segment_offsets_len, removelast_len. lia.
  Qed.

  Lemma init_seg s a b c o : init_from_buffer s a b c = Ok o -> o_seg o = s.
  Proof.
    unfold init_from_buffer. cbn [o_off o_ptrs]. destruct (_ <=? _); cbn [py_assert bind]; [|discriminate].
    destruct (_ + c * 8 <=? _); cbn [py_assert bind]; [|discriminate]. intros E. apply ok_inj in E. subst. reflexivity.
  Qed.

  Lemma load_message_eq st o st' : load_message St read st = (Ok o, st') ->
    blen (sbuf (o_seg o)) < 2 ^ 31 -> nsegs o < 2 ^ 31 ->
    c_load_message St read st = (Ok o, st').
  Proof.
    unfold load_message, c_load_message. destruct (read 4 st) as [b st1].
    destruct (blen b =? 0); [discriminate|]. destruct (_ <? 4); [discriminate|].
    destruct (unpack_uint32 b 0) as [u|] eqn:U; [|discriminate]. apply unpack_range in U.
    destruct (Z.eqb_spec (u + 1) 1) as [E1|E1].
    - rewrite wrap32_small by lia. replace (u + 1 =? 1) with true by lia.
      destruct (load_single St read st1) as [[s|e] st2] eqn:LS; [|discriminate].
      intros E B _. pose proof (f_equal fst E) as E2. cbn [fst] in E2. pose proof (init_seg _ _ _ _ _ E2) as SG.
      rewrite SG in B. rewrite (load_single_eq _ _ _ LS B). rewrite c_init_root. exact E.
    - destruct (load_multi St read (u + 1) st1) as [[s|e] st2] eqn:LS; [|discriminate].
      intros E B N. pose proof (f_equal fst E) as E2. cbn [fst] in E2. pose proof (init_seg _ _ _ _ _ E2) as SG.
      unfold nsegs in N. rewrite SG in B, N. destruct (load_multi_nsegs (u + 1) _ _ _ ltac:(lia) LS) as (t & T1 & T2).
      rewrite T1 in N. rewrite wrap32_small by lia. replace (u + 1 =? 1) with false by lia.
      rewrite (load_multi_eq _ _ _ _ LS B). rewrite c_init_root. exact E.
  Qed.

  (** the other way round, for a reader which, in the states of [P], never
      returns more than it is asked for *)
  Variable P : St -> Prop.
  Hypothesis P_step : forall st b st', P st -> read 4 st = (b, st') -> 4 <= blen b -> P st'.
  Hypothesis P_sane : forall n st, P st -> 0 <= n -> blen (fst (read n st)) <= n.
  Hypothesis P_pad : forall k n st, P st -> 1 <= k <= 8 -> 0 <= n -> blen (fst (read n (snd (read k st)))) <= n.

  Lemma load_sizes_P n : forall st l st', P st -> load_sizes St read n st = (Ok l, st') -> P st'.
  Proof.
    induction n as [|n IH]; intros st l st' H; cbn [load_sizes].
    - intros E. apply (f_equal snd) in E. cbn [snd] in E. subst. exact H.
    - destruct (read 4 st) as [b st1] eqn:R. destruct (_ <? 4) eqn:B4; [discriminate|].
      destruct (load_sizes St read n st1) as [[l1|e] st2] eqn:L; [|discriminate].
      intros E. apply (f_equal snd) in E. cbn [snd] in E. subst st2.
      eapply IH; [|exact L]. eapply P_step; eauto. lia.
  Qed.

  Lemma c_load_single_inv st s st' : c_load_single St read st = (Ok s, st') ->
    load_single St read st = (Ok s, st') \/
    exists b st1 u, read 4 st = (b, st1) /\ 4 <= blen b /\ unpack_uint32 b 0 = Ok u /\ 2 ^ 28 <= u < 2 ^ 32 /\
      read (wrap32 (u * 8)) st1 = (sbuf s, st') /\ soffs s = None /\ wrap32 (u * 8) <= blen (sbuf s).
  Proof.
    unfold load_single, c_load_single. destruct (read 4 st) as [b st1].
    destruct (_ <? 4) eqn:B4; [discriminate|]. destruct (unpack_uint32 b 0) as [u|] eqn:U; [|discriminate].
    pose proof (unpack_range _ _ U) as UR. rewrite wrap32_mul.
    destruct (Z_lt_dec u (2 ^ 28)) as [Hu|Hu].
    - rewrite wrap32_small by lia. auto.
    - destruct (read (wrap32 (u * 8)) st1) as [b2 st2] eqn:R. destruct (blen b2 <? wrap32 (u * 8)) eqn:L; [discriminate|].
      intros E. right. exists b, st1, u. pose proof (f_equal fst E) as E1. pose proof (f_equal snd E) as E2.
      cbn [fst snd] in E1, E2. apply ok_inj in E1. subst s st2. cbn [sbuf soffs]. repeat split; try lia; try assumption; try reflexivity.
  Qed.

  Lemma c_load_multi_inv n st s st' : P st -> c_load_multi St read n st = (Ok s, st') ->
    load_multi St read n st = (Ok s, st') /\ (n <= 0 -> sbuf s = []).
  Proof.
    intros PS. unfold load_multi, c_load_multi. destruct (load_sizes St read (Z.to_nat n) st) as [[l|] st1] eqn:LS; [|discriminate].
    pose proof (load_sizes_nonneg read (Z.to_nat n) st l) as NN. rewrite LS in NN. specialize (NN eq_refl).
    pose proof (sumZ_nonneg l NN). pose proof (load_sizes_P _ _ _ _ PS LS) as PS1. apply load_sizes_len in LS.
    assert (LW : Z.land (wrap32 (4 + wrap32 (n * 4))) 7 = Z.land (4 + n * 4) 7).
    { rewrite land7_wrap, !land7. pose proof (wrap32_mod (n * 4)) as W.
      assert (E : forall y, y mod 8 = (y mod 2 ^ 32) mod 8).
      { intros y. change (2 ^ 32) with (8 * 2 ^ 29). rewrite Z.rem_mul_r by lia. lia. }
      rewrite (Z.add_mod 4 (wrap32 _)), (Z.add_mod 4 (n * 4)) by lia. rewrite (E (wrap32 _)), W, <- E. reflexivity. }
    rewrite LW. pose proof (land7 (4 + n * 4)) as L7.
    match goal with |- context [if negb ?c then ?a else ?b] => set (st2 := if negb c then a else b) end.
    assert (SN0 : 0 <= sumZ l * 8 -> blen (fst (read (sumZ l * 8) st2)) <= sumZ l * 8).
    { intros NN0. subst st2. destruct (negb _); [apply P_pad; [exact PS1|lia|exact NN0]|apply P_sane; [exact PS1|exact NN0]]. }
    clearbody st2.
    rewrite to_int_spec. destruct (_ && _) eqn:TI; [|discriminate].
    pose proof (SN0 ltac:(lia)) as SN.
    destruct (read (sumZ l * 8) st2) as [b st3] eqn:R. cbn [fst] in SN. destruct (blen b <? sumZ l * 8) eqn:L; [discriminate|].
    rewrite offsets_small; [|lia|apply Forall_removelast; exact NN|pose proof (sumZ_removelast l NN); lia].
    intros E. split; [exact E|]. intros N0. apply (f_equal fst) in E. cbn [fst] in E. apply ok_inj in E. subst s. cbn [sbuf].
    replace (Z.to_nat n) with O in LS by lia. destruct l; [|discriminate]. cbn [sumZ] in SN. pose proof (blen_nonneg b).
    apply blen_0_nil. lia.
  Qed.

  Lemma c_load_message_inv st o st' : P st -> c_load_message St read st = (Ok o, st') ->
    load_message St read st = (Ok o, st') \/
    exists b0 st0 b st1 u, read 4 st = (b0, st0) /\ 4 <= blen b0 /\ unpack_uint32 b0 0 = Ok 0 /\
      read 4 st0 = (b, st1) /\ 4 <= blen b /\ unpack_uint32 b 0 = Ok u /\ 2 ^ 28 <= u < 2 ^ 32 /\
      read (wrap32 (u * 8)) st1 = (sbuf (o_seg o), st') /\ soffs (o_seg o) = None /\
      wrap32 (u * 8) <= blen (sbuf (o_seg o)) /\ init_from_buffer (o_seg o) 0 0 1 = Ok o.
  Proof.
    intros PS. unfold load_message, c_load_message. destruct (read 4 st) as [b st1] eqn:R0.
    destruct (blen b =? 0); [discriminate|]. destruct (_ <? 4) eqn:B4; [discriminate|].
    destruct (unpack_uint32 b 0) as [u|] eqn:U; [|discriminate]. pose proof (unpack_range _ _ U) as UR.
    assert (CI : forall s x, c_init_from_buffer s 0 0 1 = Ok x ->
               o_seg x = s /\ init_from_buffer s 0 0 1 = Ok x).
    { intros s x E. assert (SG : o_seg x = s).
      { revert E. unfold c_init_from_buffer. cbn [o_off o_ptrs]. destruct (_ <=? _); cbn [py_assert bind]; [|discriminate].
        destruct (_ <=? _); cbn [py_assert bind]; [|discriminate]. intros E. apply ok_inj in E. subst. reflexivity. }
      split; [exact SG|]. rewrite <- c_init_root. exact E. }
    destruct (Z.eqb_spec (wrap32 (u + 1)) 1) as [E1|E1].
    - assert (u = 0). { pose proof (wrap32_mod (u + 1)). rewrite E1 in *. lia. }
      subst u. change (0 + 1 =? 1) with true.
      destruct (c_load_single St read st1) as [[s|e] st2] eqn:LS; [|discriminate].
      intros E. pose proof (f_equal fst E) as E2. pose proof (f_equal snd E) as E3. cbn [fst snd] in E2, E3. subst st2.
      destruct (CI _ _ E2) as (SG & I). destruct (c_load_single_inv _ _ _ LS) as [L|L].
      + left. cbv iota. rewrite L, I. reflexivity.
      + right. destruct L as (b1 & st3 & v & X1 & X2 & X3 & X4 & X5 & X6 & X7). exists b, st1, b1, st3, v.
        rewrite SG. repeat split; try lia; assumption.
    - destruct (c_load_multi St read (wrap32 (u + 1)) st1) as [[s|e] st2] eqn:LS; [|discriminate].
      intros E. pose proof (f_equal fst E) as E2. pose proof (f_equal snd E) as E3. cbn [fst snd] in E2, E3. subst st2.
      destruct (CI _ _ E2) as (SG & I). destruct (c_load_multi_inv _ _ _ _ (P_step _ _ _ PS R0 ltac:(lia)) LS) as (L & N0).
      assert (PN : 1 <= wrap32 (u + 1)).
      { destruct (Z_le_dec 1 (wrap32 (u + 1))) as [|X]; [assumption|]. exfalso. apply init_root_ok in I.
        rewrite (N0 ltac:(lia)) in I. cbn in I. lia. }
      left. pose proof (wrap32_mod (u + 1)) as W. pose proof (wrap32_range (u + 1)) as WR.
      assert (WE : wrap32 (u + 1) = u + 1) by lia. rewrite WE in *.
      replace (u + 1 =? 1) with false by lia. rewrite L, I. reflexivity.
  Qed.
End reader.
