(** loads() and load() of the compiled library against the pure ones. *)
From Verif Require Import Base BaseFacts Spec Ptr PtrFacts Segment SegmentFacts Builder Copy Endof Struct List Message
  StreamFacts MessageFacts MsgFinal Enc EncFacts CRead CReadSpec CReadFacts BuilderC CLoad CLoadFacts.
From Coq Require Import ZifyBool.
Ltac Zify.zify_post_hook ::= Z.div_mod_to_equations.

(** ** Replacing the reader, on a successful load *)
Section transfer.
  Context {St : Type} (read r2 : Z -> St -> bytes * St) (m : St -> Z) (M : Z).
  Hypothesis mono : forall n st, 0 <= n -> m st <= m (snd (read n st)).
  Hypothesis agree : forall n st, 0 <= n -> 0 <= m st -> m (snd (read n st)) <= M -> r2 n st = read n st.

  Lemma sizes_mono n : forall st, m st <= m (snd (load_sizes St read n st)).
  Proof.
    induction n as [|n IH]; intros st; cbn [load_sizes]; [reflexivity|].
    pose proof (mono 4 st ltac:(lia)) as M4. destruct (read 4 st) as [b st1]. cbn [snd] in M4.
    destruct (_ <? 4); [exact M4|]. specialize (IH st1).
    destruct (load_sizes St read n st1) as [[l|e] st2]; cbn [snd] in *; lia.
  Qed.

  Lemma sizes_agree n : forall st, 0 <= m st -> m (snd (load_sizes St read n st)) <= M ->
    load_sizes St r2 n st = load_sizes St read n st.
  Proof.
    induction n as [|n IH]; intros st H0; cbn [load_sizes]; [reflexivity|].
    pose proof (mono 4 st ltac:(lia)) as M4. pose proof (agree 4 st ltac:(lia) H0) as A4.
    destruct (read 4 st) as [b st1]. cbn [snd] in M4, A4.
    destruct (_ <? 4) eqn:B; [intros L; rewrite (A4 L), B; reflexivity|].
    pose proof (sizes_mono n st1) as SM. specialize (IH st1 ltac:(lia)).
    destruct (load_sizes St read n st1) as [[l|e] st2]; cbn [snd] in *; intros L;
      rewrite (A4 ltac:(lia)), B, (IH L); reflexivity.
  Qed.

  Lemma single_mono st : m st <= m (snd (load_single St read st)).
  Proof.
    unfold load_single. pose proof (mono 4 st ltac:(lia)) as M4. destruct (read 4 st) as [b st1]. cbn [snd] in M4.
    destruct (_ <? 4); [exact M4|]. destruct (unpack_uint32 b 0) as [u|] eqn:U; [|exact M4].
    apply unpack_range in U. pose proof (mono (u * 8) st1 ltac:(lia)) as MU.
    destruct (read (u * 8) st1) as [b2 st2]. cbn [snd] in MU. destruct (_ <? u * 8); cbn [snd]; lia.
  Qed.

  Lemma single_agree st : 0 <= m st -> m (snd (load_single St read st)) <= M ->
    load_single St r2 st = load_single St read st.
  Proof.
    unfold load_single. intros H0. pose proof (mono 4 st ltac:(lia)) as M4. pose proof (agree 4 st ltac:(lia) H0) as A4.
    destruct (read 4 st) as [b st1]. cbn [snd] in M4, A4.
    destruct (_ <? 4) eqn:B; [intros L; rewrite (A4 L), B; reflexivity|].
    destruct (unpack_uint32 b 0) as [u|] eqn:U; [|intros L; rewrite (A4 L), B, U; reflexivity].
    pose proof (unpack_range _ _ U). pose proof (mono (u * 8) st1 ltac:(lia)) as MU.
    pose proof (agree (u * 8) st1 ltac:(lia) ltac:(lia)) as AU.
    destruct (read (u * 8) st1) as [b2 st2]. cbn [snd] in MU, AU.
    destruct (_ <? u * 8) eqn:B2; cbn [snd]; intros L; rewrite (A4 ltac:(lia)), B, U, (AU L), B2; reflexivity.
  Qed.

  Lemma multi_both n st : 0 <= m st -> m st <= m (snd (load_multi St read n st)) /\
    (m (snd (load_multi St read n st)) <= M -> load_multi St r2 n st = load_multi St read n st).
  Proof.
    unfold load_multi. intros H0. pose proof (sizes_mono (Z.to_nat n) st) as SM. pose proof (sizes_agree (Z.to_nat n) st H0) as SA.
    destruct (load_sizes St read (Z.to_nat n) st) as [[l|e] st1] eqn:LS; cbn [snd] in *.
    2: { split; [exact SM|]. intros L. rewrite (SA L). reflexivity. }
    pose proof (load_sizes_nonneg read (Z.to_nat n) st l) as NN. rewrite LS in NN. specialize (NN eq_refl).
    pose proof (sumZ_nonneg l NN). pose proof (land7 (4 + n * 4)) as L7.
    pose proof (mono (8 - Z.land (4 + n * 4) 7) st1 ltac:(lia)) as MP.
    pose proof (agree (8 - Z.land (4 + n * 4) 7) st1 ltac:(lia) ltac:(lia)) as AP.
    set (st2 := if negb (Z.land (4 + n * 4) 7 =? 0) then snd (read (8 - Z.land (4 + n * 4) 7) st1) else st1).
    assert (M2 : m st1 <= m st2) by (subst st2; destruct (negb _); lia).
    pose proof (mono (sumZ l * 8) st2 ltac:(lia)) as MU.
    pose proof (agree (sumZ l * 8) st2 ltac:(lia) ltac:(lia)) as AU.
    assert (E2 : m st2 <= M ->
      (if negb (Z.land (4 + n * 4) 7 =? 0) then snd (r2 (8 - Z.land (4 + n * 4) 7) st1) else st1) = st2).
    { subst st2. destruct (negb _); [|reflexivity]. intros L. rewrite (AP L). reflexivity. }
    destruct (read (sumZ l * 8) st2) as [b st3]. cbn [snd] in MU, AU.
    destruct (blen b <? sumZ l * 8) eqn:B; cbn [snd]; (split; [lia|]); intros L;
      rewrite (SA ltac:(lia)), (E2 ltac:(lia)), (AU L), B; reflexivity.
  Qed.

  Lemma message_agree st o st' : 0 <= m st -> load_message St read st = (Ok o, st') -> m st' <= M ->
    load_message St r2 st = (Ok o, st').
  Proof.
    unfold load_message. intros H0. pose proof (mono 4 st ltac:(lia)) as M4. pose proof (agree 4 st ltac:(lia) H0) as A4.
    destruct (read 4 st) as [b st1]. cbn [snd] in M4, A4.
    destruct (blen b =? 0) eqn:Bz; [discriminate|]. destruct (_ <? 4) eqn:B; [discriminate|].
    destruct (unpack_uint32 b 0) as [u|] eqn:U; [|discriminate].
    pose proof (single_mono st1) as SM. pose proof (single_agree st1 ltac:(lia)) as SA.
    pose proof (multi_both (u + 1) st1 ltac:(lia)) as (MM & MA).
    destruct (u + 1 =? 1) eqn:U1.
    - destruct (load_single St read st1) as [[s|e] st2]; [|discriminate]. cbn [snd] in *. intros E L.
      pose proof (f_equal snd E) as E2. cbn [snd] in E2. subst st2.
      rewrite (A4 ltac:(lia)), Bz, B, U, U1, (SA L). exact E.
    - destruct (load_multi St read (u + 1) st1) as [[s|e] st2]; [|discriminate]. cbn [snd] in *. intros E L.
      pose proof (f_equal snd E) as E2. cbn [snd] in E2. subst st2.
      rewrite (A4 ltac:(lia)), Bz, B, U, U1, (MA L). exact E.
  Qed.
End transfer.

(** ** loads() *)
Lemma sb_mono n (st : sb_state) : 0 <= n -> snd st <= snd (snd (sb_read n st)).
Proof. destruct st as [s i]. cbn. lia. Qed.
Lemma sb_agree M n (st : sb_state) : M < 2 ^ 31 -> 0 <= n -> 0 <= snd st -> snd (snd (sb_read n st)) <= M ->
  c_sb_read n st = sb_read n st.
Proof.
  destruct st as [s i]. cbn. intros. replace (n =? -1) with false by lia. rewrite wrap32_small by lia. reflexivity.
Qed.

Lemma blen_concat_le segs pad : pad_ok pad segs -> blen (sbuf (mem_of segs)) + 4 * blen segs + 4 <= blen (frame_with pad segs).
Proof.
  intros P. unfold frame_with. rewrite !blen_app, blen_le_enc.
  assert (L : forall l : list bytes, blen (concat (map (fun b => le_enc 4 (blen b / 8)) l)) = 4 * blen l).
  { induction l as [|b l IH]; [reflexivity|]. cbn [map concat]. rewrite blen_app, blen_le_enc, blen_cons, IH. lia. }
  rewrite L. pose proof (blen_nonneg pad).
  assert (sbuf (mem_of segs) = concat segs) as ->.
  { destruct segs as [|b [|c r]]; try reflexivity. cbn. rewrite app_nil_r. reflexivity. }
  lia.
Qed.

Lemma nsegs_mem segs o : o_seg o = mem_of segs -> segs <> [] -> nsegs o <= blen segs.
Proof.
  intros E N. unfold nsegs. rewrite E. destruct segs as [|b [|c r]]; [congruence|unfold blen; cbn [mem_of soffs length]; lia|].
  cbn [mem_of flat soffs]. unfold blen. rewrite map_length, seq_length. lia.
Qed.

Lemma prefix_range segs k : 0 <= prefix_sum segs k <= blen (concat segs).
Proof.
  unfold prefix_sum. rewrite <- (firstn_skipn k segs) at 3. rewrite concat_app, blen_app.
  pose proof (blen_nonneg (concat (skipn k segs))). pose proof (blen_nonneg (concat (firstn k segs))). lia.
Qed.

Lemma long_mem segs : blen (sbuf (mem_of segs)) < 2 ^ 60 -> long_seg (mem_of segs).
Proof.
  intros B. split; [exact B|]. assert (X : Forall (fun x => 0 <= x <= blen (concat segs)) (map (prefix_sum segs) (seq 0 (length segs)))).
  { apply Forall_forall. intros z H. apply in_map_iff in H. destruct H as (k & <- & _). apply prefix_range. }
  destruct segs as [|b [|c t]]; [exact X|exact Logic.I|exact X].
Qed.

Lemma loads_agree r x : loads r = Ok x -> blen r < 2 ^ 31 -> c_loads r = Ok x.
Proof.
  intros L B. destruct (loads_sound _ _ L) as (segs & pad & F & PK & E & _). revert L.
  unfold loads, c_loads, load, c_load.
  destruct (load_message sb_state sb_read (r, 0)) as [[o|e] [s i]] eqn:LM; [|discriminate].
  assert (I : init_from_buffer (mem_of segs) 0 0 1 = Ok o).
  { pose proof (load_message_sb segs pad [] F PK) as X. rewrite app_nil_r, <- E in X.
    change (fst (load_message sb_state sb_read (r, 0)) = init_from_buffer (mem_of segs) 0 0 1) in X.
    rewrite LM in X. symmetry. exact X. }
  pose proof (init_seg _ _ _ _ _ I) as SG. pose proof (blen_concat_le segs pad PK) as BC.
  pose proof (nsegs_mem segs o SG (proj1 F)) as NS. pose proof (blen_nonneg (sbuf (mem_of segs))).
  destruct (o_read_struct o 0) as [y|e] eqn:OR; [|discriminate].
  destruct (Z.eqb_spec i (blen r)) as [Ei|]; [|discriminate]. cbn [negb]. subst i. intros X. apply ok_inj in X. subst y.
  assert (LM2 : load_message sb_state c_sb_read (r, 0) = (Ok o, (s, blen r))).
  { apply (message_agree sb_read c_sb_read snd (blen r)); [exact sb_mono| |reflexivity|exact LM|reflexivity].
    intros. apply (sb_agree (blen r)); assumption. }
  rewrite (load_message_eq c_sb_read _ _ _ LM2) by (rewrite ?SG; rewrite E in B; pose proof (blen_nonneg segs); lia).
  assert (LO : long_obj o).
  { apply (init_long (mem_of segs) 0 0 1); try lia; [|exact I]. apply long_mem. rewrite E in B; pose proof (blen_nonneg segs); lia. }
  destruct (read_struct_eq o 0 LO ltac:(lia)) as ([D|(D & _)] & _); [|congruence].
  rewrite D, OR, Z.eqb_refl. reflexivity.
Qed.

(** ** The other way round *)
Section transfer2.
  Context {St : Type} (r2 read : Z -> St -> bytes * St) (Q Q' : St -> Prop).
  Hypothesis full : forall n st, Q st -> 0 <= n -> n <= blen (fst (r2 n st)) ->
    r2 n st = read n st /\ Q (snd (r2 n st)).
  Hypothesis padok : forall k st, Q st -> 1 <= k <= 8 -> r2 k st = read k st /\ Q' (snd (r2 k st)).
  Hypothesis full' : forall n st, Q' st -> 0 <= n -> n <= blen (fst (r2 n st)) -> r2 n st = read n st.

  Lemma sizes_back n : forall st l st', Q st -> load_sizes St r2 n st = (Ok l, st') ->
    load_sizes St read n st = (Ok l, st') /\ Q st'.
  Proof.
    induction n as [|n IH]; intros st l st' H; cbn [load_sizes].
    - intros E. pose proof (f_equal snd E) as E2. cbn [snd] in E2. subst. auto.
    - pose proof (full 4 st H ltac:(lia)) as F4. destruct (r2 4 st) as [b st1]. cbn [fst snd] in F4.
      destruct (_ <? 4) eqn:B; [discriminate|]. destruct F4 as (<- & Q1); [lia|]. rewrite B.
      destruct (load_sizes St r2 n st1) as [[l1|e] st2] eqn:L; [|discriminate].
      destruct (IH _ _ _ Q1 L) as (-> & Q2). intros E. split; [exact E|].
      pose proof (f_equal snd E) as E2. cbn [snd] in E2. subst st2. exact Q2.
  Qed.

  Lemma single_back st s st' : Q st -> load_single St r2 st = (Ok s, st') -> load_single St read st = (Ok s, st').
  Proof.
    intros H. unfold load_single.
    pose proof (full 4 st H ltac:(lia)) as F4. destruct (r2 4 st) as [b st1]. cbn [fst snd] in F4.
    destruct (_ <? 4) eqn:B; [discriminate|]. destruct F4 as (<- & Q1); [lia|]. rewrite B.
    destruct (unpack_uint32 b 0) as [u|] eqn:U; [|discriminate].
    pose proof (unpack_range _ _ U). pose proof (full (u * 8) st1 Q1 ltac:(lia)) as FU.
    destruct (r2 (u * 8) st1) as [b2 st2]. cbn [fst snd] in FU.
    destruct (_ <? u * 8) eqn:B2; [discriminate|]. destruct FU as (<- & _); [lia|]. rewrite B2. auto.
  Qed.

  Lemma multi_back n st s st' : Q st -> load_multi St r2 n st = (Ok s, st') -> load_multi St read n st = (Ok s, st').
  Proof.
    intros H. unfold load_multi.
    destruct (load_sizes St r2 (Z.to_nat n) st) as [[l|e] st1] eqn:LS; [|discriminate].
    pose proof (load_sizes_nonneg r2 (Z.to_nat n) st l) as NN. rewrite LS in NN. specialize (NN eq_refl).
    pose proof (sumZ_nonneg l NN). pose proof (land7 (4 + n * 4)) as L7.
    destruct (sizes_back _ _ _ _ H LS) as (-> & Q1).
    destruct (padok (8 - Z.land (4 + n * 4) 7) st1 Q1 ltac:(lia)) as (<- & Q2).
    set (st2 := if negb (Z.land (4 + n * 4) 7 =? 0) then snd (r2 (8 - Z.land (4 + n * 4) 7) st1) else st1).
    assert (F : sumZ l * 8 <= blen (fst (r2 (sumZ l * 8) st2)) -> r2 (sumZ l * 8) st2 = read (sumZ l * 8) st2).
    { subst st2. destruct (negb _); intros; [apply full'|apply full]; try assumption; lia. }
    destruct (r2 (sumZ l * 8) st2) as [b st3]. cbn [fst] in F.
    destruct (blen b <? sumZ l * 8) eqn:B; [discriminate|]. rewrite <- F by lia. rewrite B. auto.
  Qed.

  Lemma message_back st o st' : Q st -> load_message St r2 st = (Ok o, st') -> load_message St read st = (Ok o, st').
  Proof.
    intros H. unfold load_message.
    pose proof (full 4 st H ltac:(lia)) as F4. destruct (r2 4 st) as [b st1]. cbn [fst snd] in F4.
    destruct (blen b =? 0) eqn:Bz; [discriminate|].
    destruct (_ <? 4) eqn:B; [discriminate|]. destruct F4 as (<- & Q1); [lia|]. rewrite Bz, B.
    destruct (unpack_uint32 b 0) as [u|] eqn:U; [|discriminate].
    destruct (u + 1 =? 1) eqn:U1.
    - destruct (load_single St r2 st1) as [[s|e] st2] eqn:L; [|discriminate]. rewrite (single_back _ _ _ Q1 L). auto.
    - destruct (load_multi St r2 (u + 1) st1) as [[s|e] st2] eqn:L; [|discriminate]. rewrite (multi_back _ _ _ _ Q1 L). auto.
  Qed.
End transfer2.

Lemma blen_py_slice {A} (l : list A) i j : 0 <= i ->
  blen (py_slice l i j) <= Z.max 0 (if j <? 0 then blen l + j - i else j - i).
Proof.
  intros Hi. pose proof (blen_nonneg l). unfold py_slice, sub, py_bound. unfold blen in *.
  rewrite firstn_length, skipn_length. destruct (i <? 0) eqn:I; [lia|].
  destruct (j <? 0) eqn:J; lia.
Qed.

Section one.
  Variable r : bytes.
  Hypothesis Hr : blen r < 2 ^ 31 - 16.

  Definition in_r (k : Z) (st : sb_state) : Prop := fst st = r /\ 0 <= snd st <= blen r + k.

  Lemma c_sb_le k n st : 0 <= k <= 8 -> in_r k st -> 0 <= n ->
    blen (fst (c_sb_read n st)) <= n /\
    (n <= blen (fst (c_sb_read n st)) -> c_sb_read n st = sb_read n st /\ (0 < n -> snd st + n <= blen r)).
  Proof.
    intros Hk (E & I) Hn. destruct st as [s i]. cbn [fst snd] in *. subst s. unfold c_sb_read, sb_read. cbn [fst snd].
    replace (n =? -1) with false by lia. pose proof (blen_py_slice r i (wrap32 (i + n)) ltac:(lia)) as BS.
    pose proof (wrap32_range (i + n)). pose proof (wrap32_mod (i + n)).
    destruct (Z_lt_dec (i + n) (2 ^ 31)) as [Hs|Hs].
    - rewrite (wrap32_small (i + n)) in BS |- * by lia. cbn [fst]. split; [destruct (i + n <? 0) eqn:?; lia|]. intros L. split; [reflexivity|].
      intros Hp. assert (blen (py_slice r i (i + n)) <= blen r - i \/ blen (py_slice r i (i + n)) = 0).
      { unfold py_slice, sub, py_bound. unfold blen. rewrite firstn_length, skipn_length.
        destruct (i <? 0) eqn:X; lia. }
      lia.
    - cbn [fst]. assert (N : blen (py_slice r i (wrap32 (i + n))) < n) by (destruct (wrap32 (i + n) <? 0) eqn:W; lia).
      split; lia.
  Qed.

  Lemma c_sb_pad k st : in_r 0 st -> 1 <= k <= 8 -> c_sb_read k st = sb_read k st /\ in_r 8 (snd (c_sb_read k st)).
  Proof.
    intros (E & I) Hk. destruct st as [s i]. unfold c_sb_read, sb_read, in_r. cbn [fst snd] in *.
    replace (k =? -1) with false by lia. rewrite wrap32_small by lia. cbn [fst snd]. repeat split; try assumption; lia.
  Qed.

  Lemma c_sb_full n st : in_r 0 st -> 0 <= n -> n <= blen (fst (c_sb_read n st)) ->
    c_sb_read n st = sb_read n st /\ in_r 0 (snd (c_sb_read n st)).
  Proof.
    intros H Hn L. destruct (c_sb_le 0 n st ltac:(lia) H Hn) as (_ & X). destruct (X L) as (E & B). split; [exact E|].
    rewrite E. destruct st as [s i]. destruct H as (H1 & H2). unfold in_r, sb_read. cbn [fst snd] in *.
    split; [exact H1|]. destruct (Z.eq_dec n 0); lia.
  Qed.

  (** what accepting a message means, up to a null root *)
  Definition opens (segs : list bytes) (x : option obj) : Prop :=
    open_segments segs = Ok x \/ (open_segments segs = Err IndexError /\ x = None).

  Lemma opens_intro segs o x : init_from_buffer (mem_of segs) 0 0 1 = Ok o -> blen (sbuf (mem_of segs)) < 2 ^ 60 ->
    c_o_read_struct o 0 = Ok x -> opens segs x.
  Proof.
    intros I B C. assert (LO : long_obj o).
    { apply (init_long (mem_of segs) 0 0 1); try lia; [|exact I]. apply long_mem. exact B. }
    unfold opens, open_segments. rewrite I. cbn [bind].
    destruct (read_struct_eq o 0 LO ltac:(lia)) as ([D|(D & D2)] & _); [left; congruence|right].
    split; [exact D|]. destruct D2 as [D2|(y & D2 & ->)]; congruence.
  Qed.

  Lemma c_loads_inv x : c_loads r = Ok x ->
    (exists segs pad, frameable segs /\ pad_ok pad segs /\ r = frame_with pad segs /\ opens segs x) \/
    (exists u body, r = le_enc 4 0 ++ le_enc 4 u ++ body /\ 2 ^ 28 <= u < 2 ^ 32 /\ u * 8 mod 2 ^ 32 = blen body /\
       opens [body] x).
  Proof.
    unfold c_loads, c_load.
    destruct (c_load_message sb_state c_sb_read (r, 0)) as [[o|e] [s i]] eqn:LM; [|discriminate].
    destruct (c_o_read_struct o 0) as [y|e] eqn:OR; [|discriminate].
    destruct (Z.eqb_spec i (blen r)) as [Ei|]; [|discriminate]. cbn [negb]. intros X. apply ok_inj in X. subst y.
    assert (R0 : in_r 0 (r, 0)) by (pose proof (blen_nonneg r); split; cbn [fst snd]; [reflexivity|lia]).
    destruct (c_load_message_inv c_sb_read (in_r 0)) with (st := (r, 0)) (o := o) (st' := (s, i)) as [L|W]; try assumption.
    - intros st b st' H E L. pose proof (c_sb_full 4 st H ltac:(lia)) as F. rewrite E in F. cbn [fst snd] in F. apply F. exact L.
    - intros n st H Hn. apply (c_sb_le 0 n st); [lia|exact H|exact Hn].
    - intros k n st H Hk Hn. apply (c_sb_le 8); [lia| |exact Hn]. apply c_sb_pad; assumption.
    - left. apply (message_back c_sb_read sb_read (in_r 0) (in_r 8)) in L; [|exact c_sb_full|exact c_sb_pad| |exact R0].
      2: { intros n st H Hn F. apply (c_sb_le 8 n st); [lia|exact H|exact Hn|exact F]. }
      assert (R1 : R_sb (r, 0) (r, 0)).
      { split; [cbn; unfold sb_ok; cbn; lia|]. split; reflexivity. }
      destruct (load_message_sim sb_read cread R_sb sb_sim _ _ R1) as [X1 X2]. 
      change (load_message sb_state sb_read (r, 0) = (Ok o, (s, i))) in L.
      change (R_sb (snd (load_message sb_state sb_read (r, 0))) (snd (load_message _ cread (r, 0)))) in X2.
      change (fst (load_message sb_state sb_read (r, 0)) = fst (load_message _ cread (r, 0))) in X1.
      rewrite L in X1, X2. cbn [fst snd] in X1, X2.
      destruct (load_message (bytes * Z) cread (r, 0)) as [ro st] eqn:LC. cbn [fst snd] in X1, X2. subst ro.
      destruct (load_message_sound _ _ _ _ LC) as (segs & pad & rest & F & PK & E & -> & I).
      destruct X2 as (_ & _ & X2). cbn [snd] in X2. subst i.
      assert (rest = []) as ->.
      { apply blen_0_nil. rewrite E, blen_app in X2. lia. }
      rewrite app_nil_r in E. exists segs, pad. split; [exact F|]. split; [exact PK|]. split; [exact E|].
      apply (opens_intro segs o); [exact I| |exact OR].
      pose proof (blen_concat_le segs pad PK). pose proof (blen_nonneg segs). rewrite <- E in *. lia.
    - right. destruct W as (b0 & st0 & b & st1 & u & A1 & A2 & A3 & A4 & A5 & A6 & A7 & A8 & A9 & A10 & A11).
      pose proof (c_sb_full 4 (r, 0) R0 ltac:(lia)) as F0. rewrite A1 in F0. cbn [fst snd] in F0.
      destruct (F0 A2) as (F1 & R1). pose proof (c_sb_full 4 st0 R1 ltac:(lia)) as F2. rewrite A4 in F2. cbn [fst snd] in F2.
      destruct (F2 A5) as (F3 & R2). unfold sb_read in F1. injection F1 as -> ->. unfold sb_read in F3.
      injection F3 as -> ->.
      destruct R2 as (_ & R2). cbn [snd] in R2.
      rewrite py_slice_in in A3, A6 by lia.
      change (4 - 0) with 4 in A3. change (8 - 4) with 4 in A6.
      destruct (unpack_dec (sub r 0 4)) as (U1 & U2 & U3); [rewrite blen_sub; lia|].
      destruct (unpack_dec (sub r 4 4)) as (V1 & V2 & V3); [rewrite blen_sub; lia|].
      rewrite A3 in U1. apply ok_inj in U1. rewrite <- U1 in U3.
      rewrite A6 in V1. apply ok_inj in V1. rewrite <- V1 in V3.
      pose proof (wrap32_mod (u * 8)) as WM. pose proof (wrap32_range (u * 8)) as WR.
      set (L := wrap32 (u * 8)) in *. clearbody L.
      unfold c_sb_read in A8. replace (L =? -1) with false in A8 by lia.
      pose proof (f_equal fst A8) as B1. pose proof (f_equal (fun z => snd (snd z)) A8) as B2. cbn [fst snd] in B1, B2.
      assert (8 + L < 2 ^ 31).
      { destruct (Z_lt_dec (8 + L) (2 ^ 31)); [assumption|].
        pose proof (wrap32_mod (8 + L)). pose proof (wrap32_range (8 + L)). lia. }
      rewrite wrap32_small in B1, B2 by lia. rewrite B2, Ei in B1. rewrite py_slice_in in B1 by lia.
      exists u, (sub r 8 (blen r - 8)). split.
      { rewrite <- U3, <- V3. rewrite <- sub_split by lia. rewrite <- (sub_all r) at 1.
        replace (blen r) with (4 + (4 + (blen r - 8))) at 1 by lia. rewrite !sub_split by lia. reflexivity. }
      split; [exact A7|]. split; [rewrite blen_sub; lia|].
      apply (opens_intro [sub r 8 (blen r - 8)] o); [| |exact OR].
      + cbn [mem_of]. rewrite B1. destruct (o_seg o) as [bb so] eqn:OS. cbn [soffs sbuf] in *. subst so. exact A11.
      + cbn [mem_of sbuf]. rewrite blen_sub; lia.
  Qed.
End one.

(** ** Files *)
Lemma len_le_enc n v : length (le_enc n v) = n.
Proof. pose proof (blen_le_enc n v). unfold blen in *. lia. Qed.
Lemma firstn_app_exact {A} (a b : list A) n : length a = n -> firstn n (a ++ b) = a.
Proof. intros <-. rewrite firstn_app, Nat.sub_diag, firstn_all. cbn [firstn]. apply app_nil_r. Qed.
Lemma skipn_app_exact {A} (a b : list A) n : length a = n -> skipn n (a ++ b) = b.
Proof. intros <-. rewrite skipn_app, Nat.sub_diag, skipn_all. reflexivity. Qed.

Lemma file_sim n (a : bytes) (b : bytes * Z) : 0 <= n -> a = fst b ->
  fst (file_read n a) = fst (cread n b) /\ snd (file_read n a) = fst (snd (cread n b)).
Proof.
  intros Hn ->. destruct b as [r c]. unfold file_read, cread. replace (n <? 0) with false by lia. cbn [fst snd]. auto.
Qed.

Lemma load_file_agree f x rest : load bytes file_read f = (Ok x, rest) -> blen f < 2 ^ 31 ->
  c_load bytes file_read f = (Ok x, rest).
Proof.
  unfold load, c_load. intros L B. destruct (load_message bytes file_read f) as [[o|e] st] eqn:LM; [|discriminate].
  destruct (load_message_sim file_read cread (fun a b => a = fst b) file_sim f (f, 0) eq_refl) as [X1 X2].
  rewrite LM in X1, X2. cbn [fst snd] in X1, X2.
  destruct (load_message (bytes * Z) cread (f, 0)) as [ro st0] eqn:LC. cbn [fst snd] in X1, X2. subst ro.
  destruct (load_message_sound _ _ _ _ LC) as (segs & pad & rest' & F & PK & E & -> & I). cbn [fst] in X2. subst st.
  pose proof (init_seg _ _ _ _ _ I) as SG. pose proof (blen_concat_le segs pad PK) as BC.
  pose proof (nsegs_mem segs o SG (proj1 F)) as NS. pose proof (blen_nonneg (sbuf (mem_of segs))).
  pose proof (blen_nonneg segs). pose proof (blen_nonneg rest').
  rewrite E, blen_app in B.
  rewrite (load_message_eq file_read _ _ _ LM) by (rewrite ?SG; lia).
  assert (LO : long_obj o).
  { apply (init_long (mem_of segs) 0 0 1); try lia; [|exact I]. apply long_mem. lia. }
  pose proof (f_equal fst L) as L1. cbn [fst] in L1.
  destruct (read_struct_eq o 0 LO ltac:(lia)) as ([D|(D & _)] & _); [|congruence].
  rewrite D. exact L.
Qed.

Lemma load_file_inv f x rest : c_load bytes file_read f = (Ok x, rest) -> blen f < 2 ^ 60 ->
  (exists segs pad, frameable segs /\ pad_ok pad segs /\ f = frame_with pad segs ++ rest /\ opens segs x) \/
  (exists u body, f = le_enc 4 0 ++ le_enc 4 u ++ body ++ rest /\ 2 ^ 28 <= u < 2 ^ 32 /\
     (if u * 8 mod 2 ^ 32 <? 2 ^ 31 then blen body = u * 8 mod 2 ^ 32 else rest = []) /\ opens [body] x).
Proof.
  unfold c_load. intros L B. destruct (c_load_message bytes file_read f) as [[o|e] st] eqn:LM; [|discriminate].
  pose proof (f_equal fst L) as OR. pose proof (f_equal snd L) as E. cbn [fst snd] in OR, E. subst st.
  destruct (c_load_message_inv file_read (fun _ => True)) with (st := f) (o := o) (st' := rest) as [P|W]; try assumption; try exact Logic.I.
  - intros; exact Logic.I.
  - intros n st _ Hn. unfold file_read. replace (n <? 0) with false by lia. cbn [fst]. unfold blen.
    rewrite firstn_length. lia.
  - intros k n st _ Hk Hn. unfold file_read at 1. replace (n <? 0) with false by lia. cbn [fst]. unfold blen.
    rewrite firstn_length. lia.
  - left. destruct (load_message_sim file_read cread (fun a b => a = fst b) file_sim f (f, 0) eq_refl) as [X1 X2].
    rewrite P in X1, X2. cbn [fst snd] in X1, X2.
    destruct (load_message (bytes * Z) cread (f, 0)) as [ro st0] eqn:LC. cbn [fst snd] in X1, X2. subst ro.
    destruct (load_message_sound _ _ _ _ LC) as (segs & pad & rest' & F & PK & E & -> & I). cbn [fst] in X2. subst rest'.
    exists segs, pad. split; [exact F|]. split; [exact PK|]. split; [exact E|].
    apply (opens_intro segs o); [exact I| |exact OR].
    pose proof (blen_concat_le segs pad PK). pose proof (blen_nonneg segs). pose proof (blen_nonneg rest).
    rewrite E, blen_app in B. lia.
  - right. destruct W as (b0 & st0 & b & st1 & u & A1 & A2 & A3 & A4 & A5 & A6 & A7 & A8 & A9 & A10 & A11).
    unfold file_read in A1, A4. cbn [Z.ltb Z.compare] in A1, A4.
    change (Z.to_nat 4) with 4%nat in A1, A4.
    pose proof (f_equal fst A1) as B1. pose proof (f_equal snd A1) as B2. cbn [fst snd] in B1, B2.
    pose proof (f_equal fst A4) as C1. pose proof (f_equal snd A4) as C2. cbn [fst snd] in C1, C2.
    assert (F : f = b0 ++ b ++ st1) by (subst; rewrite !firstn_skipn; reflexivity).
    assert (L0 : blen b0 = 4) by (subst b0; unfold blen in *; rewrite firstn_length in *; lia).
    assert (L1 : blen b = 4) by (subst b; unfold blen in *; rewrite firstn_length in *; lia).
    destruct (unpack_dec b0 L0) as (U1 & U2 & U3). destruct (unpack_dec b L1) as (V1 & V2 & V3).
    rewrite A3 in U1. apply ok_inj in U1. rewrite <- U1 in U3.
    rewrite A6 in V1. apply ok_inj in V1. rewrite <- V1 in V3.
    pose proof (wrap32_mod (u * 8)) as WM. pose proof (wrap32_range (u * 8)) as WR.
    set (W := wrap32 (u * 8)) in *. clearbody W.
    assert (S1 : st1 = sbuf (o_seg o) ++ rest).
    { unfold file_read in A8. destruct (W <? 0).
      - pose proof (f_equal fst A8) as D1. pose proof (f_equal snd A8) as D2. cbn [fst snd] in D1, D2. rewrite <- D1, <- D2, app_nil_r. reflexivity.
      - pose proof (f_equal fst A8) as D1. pose proof (f_equal snd A8) as D2. cbn [fst snd] in D1, D2. rewrite <- D1, <- D2.
        rewrite firstn_skipn. reflexivity. }
    exists u, (sbuf (o_seg o)). split.
    { rewrite <- U3, <- V3, <- S1. exact F. }
    split; [exact A7|]. split.
    { unfold file_read in A8. destruct (Z.ltb_spec (u * 8 mod 2 ^ 32) (2 ^ 31)).
      - replace (W <? 0) with false in A8 by lia. apply (f_equal fst) in A8. cbn [fst] in A8.
        assert (blen (sbuf (o_seg o)) <= W); [|lia]. rewrite <- A8. unfold blen. rewrite firstn_length. lia.
      - replace (W <? 0) with true in A8 by lia. apply (f_equal snd) in A8. symmetry. exact A8. }
    apply (opens_intro [sbuf (o_seg o)] o); [| |exact OR].
    + cbn [mem_of]. rewrite <- A9. destruct (o_seg o); exact A11.
    + cbn [mem_of sbuf]. rewrite F, S1, !blen_app in B. pose proof (blen_nonneg rest). lia.
Qed.

(** ** What is accepted and should not be *)
Definition c_open (body : bytes) : res (option obj) :=
  do o <- c_init_from_buffer {| sbuf := body; soffs := None |} 0 0 1; c_o_read_struct o 0.

Section wrong.
  Variables (u : Z) (body : bytes).
  Hypothesis Hu : 0 <= u < 2 ^ 32.
  Let msg := le_enc 4 0 ++ le_enc 4 u ++ body.

  Lemma c_loads_wrap : u * 8 mod 2 ^ 32 = blen body -> blen body < 2 ^ 31 - 8 -> c_loads msg = c_open body.
  Proof.
    intros E B. pose proof (blen_nonneg body).
    assert (LM : blen msg = 8 + blen body) by (subst msg; rewrite !blen_app, !blen_le_enc; lia).
    assert (S0 : py_slice msg 0 4 = le_enc 4 0).
    { rewrite py_slice_in by lia. subst msg. rewrite sub_app1 by (rewrite ?blen_app, ?blen_le_enc; lia).
      change (4 - 0) with (blen (le_enc 4 0)). apply sub_all. }
    assert (S1 : py_slice msg 4 8 = le_enc 4 u).
    { rewrite py_slice_in by lia. subst msg. rewrite sub_app2 by (rewrite ?blen_app, ?blen_le_enc; lia).
      rewrite blen_le_enc. change (4 - Z.of_nat 4) with 0. rewrite sub_app1 by (rewrite ?blen_app, ?blen_le_enc; lia).
      replace (8 - 4) with (blen (le_enc 4 u)) by (rewrite blen_le_enc; reflexivity). apply sub_all. }
    assert (S2 : py_slice msg 8 (8 + blen body) = body).
    { rewrite py_slice_in by lia. subst msg. rewrite app_assoc. rewrite sub_app2 by (rewrite ?blen_app, ?blen_le_enc; lia).
      rewrite blen_app, !blen_le_enc. change (8 - _) with 0. replace (8 + blen body - 8) with (blen body) by lia. apply sub_all. }
    assert (WU : wrap32 (u * 8) = blen body).
    { transitivity (wrap32 (blen body)); [|apply wrap32_small; lia]. apply wrap32_eq. rewrite E. symmetry. apply Z.mod_small. lia. }
    unfold c_loads, c_load, c_load_message, c_open. unfold c_sb_read at 1. change (4 =? -1) with false. cbv iota.
    change (wrap32 (0 + 4)) with 4. rewrite S0. rewrite blen_le_enc. change (Z.of_nat 4 =? 0) with false.
    change (Z.of_nat 4 <? 4) with false. cbv iota. rewrite unpack_enc by lia. change (wrap32 (0 + 1) =? 1) with true. cbv iota.
    unfold c_load_single. unfold c_sb_read at 1. change (4 =? -1) with false. cbv iota.
    change (wrap32 (4 + 4)) with 8. rewrite S1. rewrite blen_le_enc.
    change (Z.of_nat 4 <? 4) with false. cbv iota. rewrite unpack_enc by lia. rewrite wrap32_mul, WU.
    unfold c_sb_read. replace (blen body =? -1) with false by lia. rewrite (wrap32_small (8 + blen body)) by lia.
    rewrite S2. replace (blen body <? blen body) with false by lia.
    destruct (c_init_from_buffer _ 0 0 1) as [o|e]; cbn [bind]; [|reflexivity].
    destruct (c_o_read_struct o 0) as [y|e]; [|reflexivity]. rewrite LM, Z.eqb_refl. reflexivity.
  Qed.

  Lemma c_load_file_wrap : 2 ^ 31 <= u * 8 mod 2 ^ 32 -> c_load bytes file_read msg = (c_open body, []).
  Proof.
    intros E. subst msg.
    assert (WU : wrap32 (u * 8) < 0).
    { pose proof (wrap32_mod (u * 8)). pose proof (wrap32_range (u * 8)). lia. }
    assert (RD : forall x rest, file_read 4 (le_enc 4 x ++ rest) = (le_enc 4 x, rest)).
    { intros. unfold file_read. change (4 <? 0) with false. cbv iota. reflexivity. }
    unfold c_load, c_load_message, c_open. rewrite RD. rewrite blen_le_enc. change (Z.of_nat 4 =? 0) with false.
    change (Z.of_nat 4 <? 4) with false. cbv iota. rewrite unpack_enc by lia. change (wrap32 (0 + 1) =? 1) with true. cbv iota.
    unfold c_load_single. rewrite RD. rewrite blen_le_enc.
    change (Z.of_nat 4 <? 4) with false. cbv iota. rewrite unpack_enc by lia. rewrite wrap32_mul.
    unfold file_read. replace (wrap32 (u * 8) <? 0) with true by lia.
    pose proof (blen_nonneg body). replace (blen body <? wrap32 (u * 8)) with false by lia.
    destruct (c_init_from_buffer _ 0 0 1) as [o|e]; cbn [bind]; [|reflexivity]. reflexivity.
  Qed.

  Lemma loads_short : blen body < u * 8 -> loads msg = Err ValueError.
  Proof.
    intros E. rewrite loads_cread. subst msg. unfold load, load_message.
    rewrite cread_app by (rewrite blen_le_enc; reflexivity). rewrite blen_le_enc.
    change (Z.of_nat 4 =? 0) with false.
    change (Z.of_nat 4 <? 4) with false. cbv iota. rewrite unpack_enc by lia. change (0 + 1 =? 1) with true. cbv iota.
    unfold load_single. rewrite cread_app by (rewrite blen_le_enc; reflexivity). rewrite blen_le_enc.
    change (Z.of_nat 4 <? 4) with false. cbv iota. rewrite unpack_enc by lia.
    unfold cread. replace (blen (firstn (Z.to_nat (u * 8)) body) <? u * 8) with true; [reflexivity|].
    unfold blen in *. rewrite firstn_length. lia.
  Qed.

  Lemma load_file_short : blen body < u * 8 -> exists rest, load bytes file_read msg = (Err ValueError, rest).
  Proof.
    intros E. subst msg.
    assert (RD : forall x rest, file_read 4 (le_enc 4 x ++ rest) = (le_enc 4 x, rest)).
    { intros. unfold file_read. change (4 <? 0) with false. cbv iota. reflexivity. }
    unfold load, load_message. rewrite RD. rewrite blen_le_enc. change (Z.of_nat 4 =? 0) with false.
    change (Z.of_nat 4 <? 4) with false. cbv iota. rewrite unpack_enc by lia. change (0 + 1 =? 1) with true. cbv iota.
    unfold load_single. rewrite RD. rewrite blen_le_enc.
    change (Z.of_nat 4 <? 4) with false. cbv iota. rewrite unpack_enc by lia.
    unfold file_read. replace (u * 8 <? 0) with false by lia.
    replace (blen (firstn (Z.to_nat (u * 8)) body) <? u * 8) with true; [eexists; reflexivity|].
    unfold blen in *. rewrite firstn_length. lia.
  Qed.
End wrong.
