(** One slot: writing its argument, reading it back. *)
From Verif Require Import Base Spec BaseFacts Ptr PtrFacts Segment SegmentFacts Builder Copy Enc EncFacts
  EncDen CopyFacts Struct List Query StructFacts ObjFacts CopyList ArgSpec CopyListFacts Ctor CtorSpec CtorStore
  BuilderC BuilderSim BuilderOps BuilderCFacts CCopyList CopyListStrict.
From Coq Require Import String ZifyBool ZifyNat.
Open Scope string_scope.
Open Scope Z_scope.
Ltac Zify.zify_post_hook ::= Z.div_mod_to_equations.

(** ** Xor stays in range *)
Lemma shiftr_range a n : 0 <= n -> (- 2 ^ n <= a < 2 ^ n <-> Z.shiftr a n = 0 \/ Z.shiftr a n = -1).
Proof.
  intros Hn. rewrite Z.shiftr_div_pow2 by lia. assert (0 < 2 ^ n) by (apply Z.pow_pos_nonneg; lia).
  generalize dependent (2 ^ n). intros m Hm. split; nia.
Qed.

Lemma lxor_range a b n : 0 <= n -> - 2 ^ n <= a < 2 ^ n -> - 2 ^ n <= b < 2 ^ n -> - 2 ^ n <= Z.lxor a b < 2 ^ n.
Proof.
  intros Hn Ha Hb. apply (shiftr_range a n Hn) in Ha. apply (shiftr_range b n Hn) in Hb. apply (shiftr_range _ n Hn).
  rewrite Z.shiftr_lxor. destruct Ha as [-> | ->], Hb as [-> | ->]; cbn; auto.
Qed.

Lemma lxor_fmt f a b : in_fmt f a -> in_fmt f b -> in_fmt f (Z.lxor a b).
Proof.
  unfold in_fmt. intros Ha Hb. pose proof (fsize_pos f).
  destruct (fsigned f) eqn:S.
  - assert (E : fmin f = - 2 ^ (8 * fsize f - 1) /\ fmax f = 2 ^ (8 * fsize f - 1) - 1)
      by (destruct f; try discriminate S; split; reflexivity).
    destruct E as [E1 E2]. rewrite E1, E2 in *. pose proof (lxor_range a b (8 * fsize f - 1) ltac:(lia) ltac:(lia) ltac:(lia)). lia.
  - assert (E : fmin f = 0 /\ fmax f = 2 ^ (8 * fsize f) - 1)
      by (destruct f; try discriminate S; split; reflexivity).
    destruct E as [E1 E2]. rewrite E1, E2 in *. pose proof (lxor_range a b (8 * fsize f) ltac:(lia) ltac:(lia) ltac:(lia)).
    assert (0 <= Z.lxor a b) by (apply Z.lxor_nonneg; lia). lia.
Qed.

Lemma lor_u8 a b : 0 <= a < 2 ^ 8 -> 0 <= b < 2 ^ 8 -> 0 <= Z.lor a b < 2 ^ 8.
Proof.
  intros Ha Hb. assert (0 <= Z.lor a b) by (apply Z.lor_nonneg; lia). split; [assumption|].
  assert (E : Z.shiftr (Z.lor a b) 8 = 0).
  { rewrite Z.shiftr_lor, !Z.shiftr_div_pow2 by lia. rewrite !Z.div_small by lia. reflexivity. }
  rewrite Z.shiftr_div_pow2 in E by lia. lia.
Qed.

Lemma lxor_twice a b : Z.lxor (Z.lxor a b) b = a.
Proof. rewrite Z.lxor_assoc, Z.lxor_nilpotent, Z.lxor_0_r. reflexivity. Qed.

Lemma text_val_wf nul x v : text_val nul x v -> limv v -> wfv v.
Proof.
  intros H L. destruct x; cbn [text_val] in H; try contradiction; subst v; [split; exact I|].
  unfold limv, wfv, text_value in *. pose proof (blen_nonneg b). destruct nul; cbn [vall lim1 wf1] in *;
    (split; [|exact I]); destruct L as [L _]; unfold list_bytes.
  - split; [lia|]. split; [lia|]. rewrite blen_app. change (blen [x00]) with 1. cbn. lia.
  - split; [lia|]. split; [lia|]. cbn. lia.
Qed.

Lemma struct_val_wf x v : struct_val x v -> wfv v.
Proof.
  intros H. destruct x; cbn [struct_val] in H; try contradiction; [subst v; split; exact I|].
  destruct H as (d & vs & (O & _) & ->). eapply obj_wf. exact O.
Qed.

Section Slots.
Variables ds ps : Z.
Hypothesis Hds : 0 <= ds < 2 ^ 16.
Hypothesis Hps : 0 <= ps < 2 ^ 16.
Variable fuel : nat.

Definition valid (l : loc) : Prop :=
  match l with LBit i => 0 <= i < 64 * ds | LPtr k => 0 <= k < ps end.
Definition same (l : loc) (d : bytes) (vs : list value) (d' : bytes) (vs' : list value) : Prop :=
  match l with LBit i => bit_at d i = bit_at d' i | LPtr k => v_ptr vs k = v_ptr vs' k end.
Definition frame (R : loc -> Prop) d vs d' vs' := forall l, valid l -> ~ R l -> same l d vs d' vs'.
Definition agree (R : loc -> Prop) d vs d' vs' := forall l, valid l -> R l -> same l d vs d' vs'.
Definition zero_on (R : loc -> Prop) (d : bytes) := forall i, valid (LBit i) -> R (LBit i) -> bit_at d i = false.

(** An object that can be read *)
Definition good (o : obj) (D : bytes) (VS : list value) : Prop :=
  obj_den o D VS /\ blen D = 8 * ds /\ init_from_buffer (o_seg o) (o_off o) (o_ds o) (o_ps o) = Ok o.

Lemma same_refl l d vs : same l d vs d vs.
Proof. destruct l; reflexivity. Qed.

Lemma put_scalar f buf d vs i y :
  store ds ps buf d vs -> in_fmt f y -> 0 <= i -> i + fsize f <= 8 * ds -> i mod fsize f = 0 ->
  b_write f buf i y = Ok (upd buf i (fenc f y)) /\
  (store ds ps (upd buf i (fenc f y)) (upd d i (fenc f y)) vs /\
   forall tr, shape ds ps buf tr -> shape ds ps (upd buf i (fenc f y)) tr) /\
  frame (bits (8 * i) (8 * fsize f)) d vs (upd d i (fenc f y)) vs /\
  forall o D VS, good o D VS -> agree (bits (8 * i) (8 * fsize f)) (upd d i (fenc f y)) vs D VS ->
    o_read_primitive o i f = Ok y.
Proof.
  intros S Hy Hi Hl Hm. pose proof (st_d _ _ _ _ _ S) as Ld. pose proof (st_len _ _ _ _ _ S). pose proof (fsize_pos f).
  pose proof (blen_fenc f y) as Lf.
  split; [apply pack_into_in; [exact Hy|exact Hi|lia]|].
  split; [split; [eapply store_upd; first [exact S|lia]|intros tr T; apply shape_upd; [exact T|lia|lia]]|]. split.
  - intros l V N. destruct l as [j|k]; cbn [same valid] in *; [|reflexivity].
    symmetry. apply bit_upd_other; try lia. rewrite Lf. intros B. apply N. exists j. split; [reflexivity|lia].
  - intros o D VS (O & LD & _) A. rewrite (o_read_primitive_spec o D VS i f O Hi Hm). f_equal.
    unfold v_prim. replace (blen D <=? i) with false by (symmetry; lia).
    rewrite (bits_sub D (upd d i (fenc f y)) i (fsize f)); try lia.
    + replace (sub (upd d i (fenc f y)) i (fsize f)) with (fenc f y); [apply fdec_fenc; exact Hy|].
      rewrite <- Lf. symmetry. apply sub_upd_same; lia.
    + rewrite blen_upd; lia.
    + intros j Hj. symmetry. apply (A (LBit j)); cbn [valid]; [lia|]. exists j. split; [reflexivity|lia].
Qed.

Lemma put_ptr w v buf d vs k :
  store ds ps buf d vs -> 0 <= k < ps -> wr_ok w v -> wfv v -> blen buf + blen (content v) <= 2 ^ 32 ->
  exists buf', w buf (8 * (ds + k)) = Ok buf' /\ store ds ps buf' d (set_ptr vs k v) /\
    (blen buf' = blen buf + blen (content v) /\ forall tr, shape ds ps buf tr -> shape ds ps buf' (tr ++ [(k, v)])) /\
    frame (fun l => l = LPtr k) d vs d (set_ptr vs k v) /\
    forall D VS, agree (fun l => l = LPtr k) d (set_ptr vs k v) D VS -> v_ptr VS k = v.
Proof.
  intros S Hk W WF Hl. pose proof (st_vs _ _ _ _ _ S) as Lv.
  destruct (store_ptr ds ps Hds buf d vs k v w S Hk W WF Hl (content_mod v WF)) as (buf' & E & S' & L & TS).
  exists buf'. split; [exact E|]. split; [exact S'|]. split; [split; [exact L|exact TS]|]. split.
  - intros l V N. destruct l as [j|j]; cbn [same valid] in *; [reflexivity|]. rewrite v_ptr_set by lia.
    replace (j =? k) with false; [reflexivity|]. symmetry. apply Z.eqb_neq. intros ->. apply N. reflexivity.
  - intros D VS A. specialize (A (LPtr k) Hk eq_refl). cbn [same] in A. rewrite v_ptr_set, Z.eqb_refl in A by lia.
    congruence.
Qed.

(** write_bool on a zero bit *)
Lemma put_bool buf d vs i b :
  store ds ps buf d vs -> 0 <= i < 64 * ds -> bit_at d i = false ->
  exists buf' d', write_bool buf (i / 8) (i mod 8) (Z.b2z b) = Ok buf' /\ store ds ps buf' d' vs /\
    (blen buf' = blen buf /\ forall tr, shape ds ps buf tr -> shape ds ps buf' tr) /\ frame (fun l => l = LBit i) d vs d' vs /\
    forall o D VS, good o D VS -> agree (fun l => l = LBit i) d' vs D VS ->
      o_read_bit o (i / 8) (Z.shiftl 1 (i mod 8)) = Ok b.
Proof.
  intros S Hi Z0. pose proof (st_d _ _ _ _ _ S) as Ld. pose proof (st_len _ _ _ _ _ S).
  set (c := getb d (i / 8)). set (y := Z.lor (bZ c) (Z.shiftl (Z.b2z b) (i mod 8))).
  assert (Hy : in_fmt FB y).
  { unfold in_fmt. change (fmin FB) with 0. change (fmax FB) with (2 ^ 8 - 1). pose proof (bZ_range c).
    assert (0 <= Z.shiftl (Z.b2z b) (i mod 8) < 2 ^ 8).
    { rewrite Z.shiftl_mul_pow2 by lia. assert (2 ^ (i mod 8) <= 2 ^ 7) by (apply Z.pow_le_mono_r; lia).
      assert (0 < 2 ^ (i mod 8)) by (apply Z.pow_pos_nonneg; lia). destruct b; cbn [Z.b2z]; lia. }
    pose proof (lor_u8 (bZ c) (Z.shiftl (Z.b2z b) (i mod 8)) ltac:(lia) ltac:(lia)) as R. unfold y. lia. }
  destruct (put_scalar FB buf d vs (i / 8) y S Hy) as (E & (S' & TS) & F & R); cbn [fsize]; try lia.
  assert (RD : unpack_from FB buf (i / 8) = Ok (bZ c)).
  { rewrite unpack_from_in by (cbn [fsize]; lia). cbn [fsize]. rewrite sub_one by lia.
    assert (C : getb buf (i / 8) = c).
    { unfold c. rewrite <- (st_data _ _ _ _ _ S). rewrite getb_sub by lia. reflexivity. }
    rewrite C. unfold fdec. cbn [fsigned le_dec]. try (f_equal; lia). }
  assert (BY : getb (upd d (i / 8) (fenc FB y)) (i / 8) = Zb y).
  { rewrite getb_upd by (rewrite ?blen_fenc; cbn [fsize]; lia). rewrite blen_fenc. cbn [fsize].
    replace ((i / 8 <=? i / 8) && (i / 8 <? i / 8 + 1)) with true by (symmetry; lia).
    rewrite Z.sub_diag. reflexivity. }
  assert (BZ : bZ (Zb y) = y).
  { rewrite bZ_Zb. unfold in_fmt in Hy. change (fmin FB) with 0 in Hy. change (fmax FB) with 255 in Hy. apply Z.mod_small. lia. }
  assert (TB : forall j, 0 <= j < 8 -> Z.testbit y j = if j =? i mod 8 then b else Z.testbit (bZ c) j).
  { intros j Hj. unfold y. rewrite Z.lor_spec, Z.shiftl_spec by lia. destruct (Z.eqb_spec j (i mod 8)) as [->|N].
    - unfold bit_at in Z0. fold c in Z0. rewrite Z0, Z.sub_diag. destruct b; reflexivity.
    - destruct (Z.ltb_spec j (i mod 8)).
      + rewrite (Z.testbit_neg_r (Z.b2z b)) by lia. apply Bool.orb_false_r.
      + replace (Z.testbit (Z.b2z b) (j - i mod 8)) with false; [apply Bool.orb_false_r|].
        destruct b; cbn [Z.b2z]; [|symmetry; apply Z.testbit_0_l].
        symmetry. change 1 with (2 ^ 0). apply Z.pow2_bits_false. lia. }
  exists (upd buf (i / 8) (fenc FB y)), (upd d (i / 8) (fenc FB y)). split; [|split; [exact S'|split; [|split]]].
  - unfold write_bool. rewrite RD. cbn [bind]. exact E.
  - split; [apply blen_upd; rewrite ?blen_fenc; cbn [fsize]; lia|exact TS].
  - intros l V N. destruct l as [j|k]; cbn [same valid] in *; [|reflexivity].
    destruct (Z.eq_dec (j / 8) (i / 8)) as [Ej|Nj].
    + unfold bit_at. rewrite Ej, BY, BZ, TB by lia. fold c.
      destruct (Z.eqb_spec (j mod 8) (i mod 8)); [|reflexivity]. exfalso. apply N. f_equal. lia.
    + apply (F (LBit j)); [exact V|]. intros (j' & Hj' & B). injection Hj' as <-. cbn [fsize] in B. lia.
  - intros o D VS (O & LD & _) A. rewrite (o_read_bit_spec o D VS (i / 8) _ O) by lia. f_equal.
    rewrite land_pow2_testbit by lia. unfold v_prim. replace (blen D <=? i / 8) with false by (symmetry; lia).
    cbn [fsize]. rewrite sub_one by lia. unfold fdec. cbn [fsigned le_dec].
    replace (bZ (getb D (i / 8)) + 256 * 0) with (bZ (getb D (i / 8))) by lia.
    specialize (A (LBit i) Hi eq_refl). cbn [same] in A. unfold bit_at in A. rewrite <- A, BY, BZ, TB by lia.
    rewrite Z.eqb_refl. reflexivity.
Qed.

(** The compiled constructor (CCopyList.v) does the same with its builder *)
Definition csim (l : list stmt) (e : env) (buf : bytes) (e' : env) (buf' : bytes) : Prop :=
  forall junk trunc st, Rc buf st ->
    exists st', c_exec junk trunc fuel l (e, st) = Ok (e', st') /\ Rc buf' st'.

Lemma csim_one st0 e buf e' buf' :
  (forall junk trunc st, Rc buf st -> exists st', c_exec_stmt junk trunc fuel st0 (e, st) = Ok (e', st') /\ Rc buf' st') ->
  csim [st0] e buf e' buf'.
Proof.
  intros H junk trunc st R. destruct (H junk trunc st R) as (st' & E & R'). exists st'. split; [|exact R'].
  cbn [c_exec]. rewrite E. reflexivity.
Qed.
Lemma c_exec_app junk trunc l1 l2 st :
  c_exec junk trunc fuel (l1 ++ l2)%list st = do st <- c_exec junk trunc fuel l1 st; c_exec junk trunc fuel l2 st.
Proof.
  revert st. induction l1 as [|s l1 IH]; intros st; [reflexivity|]. cbn [app c_exec].
  destruct (c_exec_stmt junk trunc fuel s st); [apply IH|reflexivity].
Qed.
Lemma csim_app l1 l2 e buf e1 buf1 e2 buf2 :
  csim l1 e buf e1 buf1 -> csim l2 e1 buf1 e2 buf2 -> csim (l1 ++ l2)%list e buf e2 buf2.
Proof.
  intros H1 H2 junk trunc st R. destruct (H1 junk trunc st R) as (st1 & E1 & R1).
  destruct (H2 junk trunc st1 R1) as (st2 & E2 & R2). exists st2. split; [|exact R2].
  rewrite c_exec_app, E1. exact E2.
Qed.
Lemma csim_nil e buf : csim [] e buf e buf.
Proof. intros junk trunc st R. exists st. split; [reflexivity|exact R]. Qed.

Lemma c_scalar f buf i y st : in_fmt f y -> 0 <= i -> i + fsize f <= blen buf -> Rc buf st ->
  exists st', c_write f st i y = Ok st' /\ Rc (upd buf i (fenc f y)) st'.
Proof. intros Hy Hi Hb R. exact (sim_w f buf st i y R _ (s_w_in f buf i y Hy Hi Hb)). Qed.
Lemma c_bool buf buf' i k b st : 0 <= i < blen buf -> 0 <= k < 8 -> write_bool buf i k (Z.b2z b) = Ok buf' -> Rc buf st ->
  exists st', c_write_bool st i k b = Ok st' /\ Rc buf' st'.
Proof.
  intros Hi Hk W R. destruct (step_agree fuel (fun _ => x00) (blen buf) (OBool i k b) (blen buf) buf st) as (b1 & x1 & st1 & P & C & R1 & _);
    [apply fit_bool; assumption|reflexivity|exact R|].
  cbn [py_step c_step] in P, C. unfold no_result in P, C. rewrite W in P. cbn [bind] in P.
  apply BaseFacts.ok_inj in P. apply (f_equal fst) in P. cbn [fst] in P. subst b1.
  destruct (c_write_bool st i k b) as [st1'|]; [|discriminate C]. cbn [bind] in C. apply BaseFacts.ok_inj in C. apply (f_equal fst) in C.
  cbn [fst] in C. subst st1'. exists st1. split; [reflexivity|exact R1].
Qed.
Lemma shift_truth x b : as_shift x = Ok (Z.b2z b) -> c_truth x = Ok b.
Proof.
  destruct x; cbn [as_shift c_truth]; try discriminate; intros H; apply BaseFacts.ok_inj in H.
  - subst z. destruct b; reflexivity.
  - f_equal. destruct b, b0; try reflexivity; discriminate H.
Qed.

(** What executing the statements of a field does *)
Definition runs (R : loc -> Prop) (ok_var : string -> Prop) (l : list stmt)
  (e : env) (buf d : bytes) (vs : list value) (size : Z)
  (ws : list (Z * value)) (read : obj -> Prop) : Prop :=
  exists e' buf' d' vs',
    exec fuel l (e, buf) = Ok (e', buf') /\ store ds ps buf' d' vs' /\ blen buf' = blen buf + size /\
    (forall w, ok_var w -> e' w = e w) /\ frame R d vs d' vs' /\
    (forall o D VS, good o D VS -> agree R d' vs' D VS -> read o) /\
    (forall tr, shape ds ps buf tr -> shape ds ps buf' (tr ++ ws)) /\ csim l e buf e' buf'.

Lemma setv_same e v x : setv e v x v = Some x.
Proof. unfold setv. rewrite String.eqb_refl. reflexivity. Qed.
Lemma setv_other e v x w : w <> v -> setv e v x w = e w.
Proof. intros N. unfold setv. apply String.eqb_neq in N. rewrite N. reflexivity. Qed.

(** the effect of "v ^= default" *)
Lemma xor_int ex (e : env) v x f z dd buf :
  e v = Some x -> int_val f x z -> in_fmt f dd -> (ex = false -> dd = 0) ->
  exists e' x', exec fuel (if ex then [SXor v (PInt dd)] else []) (e, buf) = Ok (e', buf) /\
    e' v = Some x' /\ as_int x' = Ok (Z.lxor z dd) /\ (forall w, w <> v -> e' w = e w) /\
    csim (if ex then [SXor v (PInt dd)] else []) e buf e' buf.
Proof.
  intros Hv (Hx & Hz) Hd He. destruct ex.
  - cbn [exec exec_stmt]. unfold lookup. rewrite Hv. cbn [bind].
    assert (X : exists x', py_xor x (PInt dd) = Ok x' /\ as_int x' = Ok (Z.lxor z dd)).
    { destruct Hx as [-> | (b & -> & ->)]; cbn [py_xor]; eexists; (split; [reflexivity|reflexivity]). }
    destruct X as (x' & X & X2). rewrite X. cbn [bind]. exists (setv e v x'), x'.
    split; [reflexivity|]. split; [apply setv_same|]. split; [exact X2|]. split; [intros w N; apply setv_other; exact N|].
    apply csim_one. intros junk trunc st R. exists st. split; [|exact R]. cbn [c_exec_stmt]. unfold lookup. rewrite Hv. cbn [bind]. rewrite X. reflexivity.
  - rewrite (He eq_refl), Z.lxor_0_r. exists e, x. split; [reflexivity|]. split; [exact Hv|]. split; [|split; [auto|apply csim_nil]].
    destruct Hx as [-> | (b & -> & ->)]; reflexivity.
Qed.

Lemma exec_app l1 l2 st : exec fuel (l1 ++ l2)%list st = do st <- exec fuel l1 st; exec fuel l2 st.
Proof.
  revert st. induction l1 as [|s l1 IH]; intros st; [reflexivity|]. cbn [app exec].
  destruct (exec_stmt fuel s st); [apply IH|reflexivity].
Qed.

Lemma int_exec f off ex dd v (e : env) buf d vs x z :
  0 <= off -> (off + 1) * fsize f <= 8 * ds -> in_fmt f dd -> (ex = false -> dd = 0) -> int_val f x z ->
  e "builder" = Some PBuilder -> e "pos" = Some (PInt 0) -> e v = Some x -> v <> "builder" -> v <> "pos" ->
  store ds ps buf d vs ->
  runs (bits (8 * (off * fsize f)) (8 * fsize f)) (fun w => w <> v)
    ((if ex then [SXor v (PInt dd)] else []) ++ [SWrite (WInt f) (off * fsize f) v])%list e buf d vs 0 []
    (fun o => exists g, (do y <- o_read_primitive o (off * fsize f) f;
                         Ok (GInt (if negb (dd =? 0) then Z.lxor y dd else y))) = Ok g /\ g = GInt z).
Proof.
  intros Ho Hb Hd He Hx Eb Ep Ev N1 N2 S. pose proof (fsize_pos f) as FP.
  destruct (xor_int ex e v x f z dd buf Ev Hx Hd He) as (e1 & x1 & X & V1 & A1 & F1 & CX).
  assert (Hy : in_fmt f (Z.lxor z dd)) by (apply lxor_fmt; [apply Hx|exact Hd]).
  assert (Hoff : 0 <= off * fsize f) by nia.
  destruct (put_scalar f buf d vs (off * fsize f) (Z.lxor z dd) S Hy) as (W & (S' & TS) & F & R); [lia|lia|apply Z.mod_mul; lia|].
  pose proof (st_len _ _ _ _ _ S).
  exists e1, (upd buf (off * fsize f) (fenc f (Z.lxor z dd))), (upd d (off * fsize f) (fenc f (Z.lxor z dd))), vs.
  split; [|split; [exact S'|split; [|split; [exact F1|split; [exact F|split; [|split; [intros tr T; rewrite app_nil_r; apply TS; exact T|]]]]]]].
  - rewrite exec_app.
    rewrite X. cbn [bind exec exec_stmt]. unfold the_builder, at_pos, lookup.
    rewrite (F1 "builder"), (F1 "pos"), Eb, Ep, V1 by congruence. cbn [bind write_scalar]. rewrite A1. cbn [bind].
    replace (0 + off * fsize f) with (off * fsize f) by lia. rewrite W. reflexivity.
  - rewrite blen_upd; rewrite ?blen_fenc; lia.
  - intros o D VS G A. rewrite (R o D VS G A). cbn [bind]. eexists. split; [reflexivity|].
    destruct (Z.eqb_spec dd 0) as [->|N]; cbn [negb]; [rewrite Z.lxor_0_r; reflexivity|]. rewrite lxor_twice. reflexivity.
  - eapply csim_app; [exact CX|]. apply csim_one. intros junk trunc st RC.
    destruct (c_scalar f buf (off * fsize f) (Z.lxor z dd) st Hy) as (st' & W' & RC'); [lia|lia|exact RC|]. exists st'. split; [|exact RC'].
    cbn [c_exec_stmt]. unfold the_builder, at_pos, lookup.
    rewrite (F1 "builder"), (F1 "pos"), Eb, Ep, V1 by congruence. cbn [bind].
    replace (0 + off * fsize f) with (off * fsize f) by lia. unfold c_wint.
    assert (CI : c_as_int trunc x1 = as_int x1) by (destruct x1; first [reflexivity|discriminate A1]).
    rewrite CI, A1. cbn [bind]. rewrite W'. reflexivity.
Qed.

Lemma slot_exec t off ex dd v (e : env) buf d vs x vals :
  slot_ok ds ps t off ex dd -> slot_arg fuel t x vals ->
  e "builder" = Some PBuilder -> e "pos" = Some (PInt 0) -> e v = Some x -> v <> "builder" -> v <> "pos" ->
  store ds ps buf d vs -> zero_on (slot_region t off) d -> blen buf + out_size vals <= 2 ^ 32 ->
  runs (slot_region t off) (fun w => w <> v) (emit_slot ds v t off ex dd) e buf d vs (out_size vals) (map (pair off) vals)
    (fun o => exists g, read_slot o t off dd = Ok g /\ slot_same t x g).
Proof.
  intros (Ho & He & Hs) Ha Eb Ep Ev N1 N2 S Z0 Hl. pose proof (st_len _ _ _ _ _ S) as SL.
  assert (PTR : forall (st : stmt) w v0,
    vals = [v0] -> off < ps -> wr_ok w v0 -> wfv v0 ->
    exec_stmt fuel st (e, buf) = (do b <- w buf (8 * (ds + off)); Ok (e, b)) ->
    (forall junk trunc, exists wc, wrc_ok wc v0 /\ forall st1, c_exec_stmt junk trunc fuel st (e, st1) = (do st2 <- wc st1 (8 * (ds + off)); Ok (e, st2))) ->
    runs (fun l => l = LPtr off) (fun w => w <> v) [st] e buf d vs (out_size vals) (map (pair off) vals)
      (fun o => exists D VS, obj_den o D VS /\ v_ptr VS off = v0)).
  { intros st w v0 -> Hp W WF E EC. cbn [out_size fold_right] in *.
    destruct (put_ptr w v0 buf d vs off S ltac:(lia) W WF ltac:(lia)) as (buf' & E1 & S' & (L & TS) & F & R).
    exists e, buf', d, (set_ptr vs off v0). split; [|split; [exact S'|split; [lia|split; [auto|split; [exact F|split; [|split; [exact TS|]]]]]]].
    - cbn [exec]. rewrite E, E1. reflexivity.
    - intros o D VS G A. exists D, VS. split; [apply G|]. eapply R. exact A.
    - apply csim_one. intros junk trunc st1 RC. destruct (EC junk trunc) as (wc & WC & CE).
      assert (Hw : w buf (8 * (ds + off)) = Ok (upd buf (8 * (ds + off)) (le_enc 8 (ptr_word v0 ((blen buf - 8 * (ds + off) - 8) / 8))) ++ content v0)%list)
        by (apply W; first [lia|apply (st_mod _ _ _ _ _ S)]).
      rewrite E1 in Hw. apply BaseFacts.ok_inj in Hw. subst buf'.
      destruct (WC buf (8 * (ds + off)) st1) as (st2 & E2 & R2); try first [lia|apply (st_mod _ _ _ _ _ S)|exact RC].
      exists st2. split; [|exact R2]. rewrite CE, E2. reflexivity. }
  assert (ATP : forall off', at_pos e off' = Ok off').
  { intros off'. unfold at_pos, lookup. rewrite Ep. cbn [bind]. f_equal. }
  assert (BLD : the_builder e = Ok tt) by (unfold the_builder; rewrite Eb; reflexivity).
  assert (LKV : lookup e v = Ok x) by (unfold lookup; rewrite Ev; reflexivity).
  assert (SO : ty_pointer t = true -> slot_offset ds t off = 8 * (ds + off)).
  { intros Tp. unfold slot_offset. rewrite Tp. destruct t; try discriminate Tp; cbn [ty_size]; lia. }
  destruct t as [|f| | | | | | | |it|]; cbn [slot_arg] in Ha; cbn [slot_region emit_slot].
  - (* void *) subst vals. exists e, buf, d, vs. cbn [out_size fold_right]. split; [reflexivity|]. split; [exact S|].
    split; [lia|]. split; [auto|]. split; [intros l _ _; apply same_refl|]. split; [|split; [intros tr T; cbn [map]; rewrite app_nil_r; exact T|apply csim_nil]].
    intros o D VS _ _. exists GNone. split; reflexivity.
  - (* int *) destruct Ha as ((z & Hz) & ->). destruct Hs as [Hs Hd]. cbn [slot_offset ty_pointer ty_size slot_default].
    destruct (int_exec f off ex dd v e buf d vs x z) as (e' & b' & d' & vs' & A1 & A2 & A3 & A4 & A5 & A6 & A7); try assumption.
    exists e', b', d', vs'. repeat (split; [assumption|]). split; [|exact A7]. intros o D VS G A. destruct (A6 o D VS G A) as (g & G1 & ->).
    exists (GInt z). split; [exact G1|]. exists z. auto.
  - (* float32 *) destruct Ha as ((b & Hb) & ->). destruct (float_write false x b Hb) as (WF & H32). cbn [float_bits float_fmt] in WF, H32. destruct Hs as [Hs ->]. specialize (He eq_refl). subst dd.
    cbn [slot_offset ty_pointer ty_size].
    destruct (put_scalar FI buf d vs (off * 4) (FloatBits.to32 b) S H32) as (W & (S' & TS) & F & R); cbn [fsize]; try lia.
    cbn [fsize] in *. replace (8 * (off * 4)) with (32 * off) in * by lia. change (8 * 4) with 32 in *.
    exists e, (upd buf (off * 4) (fenc FI (FloatBits.to32 b))), (upd d (off * 4) (fenc FI (FloatBits.to32 b))), vs.
    split; [|split; [exact S'|split; [|split; [auto|split; [exact F|split; [|split; [intros tr T; cbn [map]; rewrite app_nil_r; apply TS; exact T|]]]]]]].
    + cbn [exec app exec_stmt]. rewrite BLD, ATP, LKV. cbn [bind write_scalar]. rewrite WF, W. reflexivity.
    + cbn [out_size fold_right]. rewrite blen_upd; rewrite ?blen_fenc; cbn [fsize]; lia.
    + intros o D VS G A. exists (GF32 (FloatBits.to32 b)). cbn [read_slot]. rewrite (R o D VS G A). cbn [bind].
      split; [reflexivity|]. cbn [slot_same]. eauto.
    + apply csim_one. intros junk trunc st RC. destruct (c_scalar FI buf (off * 4) (FloatBits.to32 b) st H32) as (st' & W' & RC'); cbn [fsize]; [lia|lia|exact RC|].
      exists st'. split; [|exact RC']. cbn [c_exec_stmt]. rewrite BLD, ATP, LKV. cbn [bind]. unfold c_wfloat. rewrite (proj1 Hb).
      unfold c_write in W'. destruct (in_fmtb _ _); [|discriminate W']. cbn [float_fmt]. rewrite W'. reflexivity.
  - (* float64 *) destruct Ha as ((b & Hb) & ->). destruct (float_write true x b Hb) as (WF & H64). cbn [float_bits float_fmt] in WF, H64. destruct Hs as [Hs ->]. specialize (He eq_refl). subst dd.
    cbn [slot_offset ty_pointer ty_size].
    destruct (put_scalar FQ buf d vs (off * 8) b S H64) as (W & (S' & TS) & F & R); cbn [fsize]; try lia.
    cbn [fsize] in *. replace (8 * (off * 8)) with (64 * off) in * by lia. change (8 * 8) with 64 in *.
    exists e, (upd buf (off * 8) (fenc FQ b)), (upd d (off * 8) (fenc FQ b)), vs.
    split; [|split; [exact S'|split; [|split; [auto|split; [exact F|split; [|split; [intros tr T; cbn [map]; rewrite app_nil_r; apply TS; exact T|]]]]]]].
    + cbn [exec app exec_stmt]. rewrite BLD, ATP, LKV. cbn [bind write_scalar]. rewrite WF, W. reflexivity.
    + cbn [out_size fold_right]. rewrite blen_upd; rewrite ?blen_fenc; cbn [fsize]; lia.
    + intros o D VS G A. exists (GF64 b). cbn [read_slot]. rewrite (R o D VS G A). cbn [bind].
      split; [reflexivity|]. cbn [slot_same]. eauto.
    + apply csim_one. intros junk trunc st RC. destruct (c_scalar FQ buf (off * 8) b st H64) as (st' & W' & RC'); cbn [fsize]; [lia|lia|exact RC|].
      exists st'. split; [|exact RC']. cbn [c_exec_stmt]. rewrite BLD, ATP, LKV. cbn [bind]. unfold c_wfloat. rewrite (proj1 Hb).
      unfold c_write in W'. destruct (in_fmtb _ _); [|discriminate W']. cbn [float_fmt]. rewrite W'. reflexivity.
  - (* bool *) destruct Ha as ((b & Hb) & ->). destruct Hs as [Hs Hd]. cbn [slot_default].
    set (b' := if negb (dd =? 0) then xorb b true else b).
    assert (X : exists e1 x1, exec fuel (if ex then [SXor v (PBool (negb (dd =? 0)))] else []) (e, buf) = Ok (e1, buf) /\
              e1 v = Some x1 /\ as_shift x1 = Ok (Z.b2z b') /\ (forall w, w <> v -> e1 w = e w) /\
              csim (if ex then [SXor v (PBool (negb (dd =? 0)))] else []) e buf e1 buf).
    { destruct ex.
      - cbn [exec exec_stmt]. rewrite LKV. cbn [bind].
        assert (X : exists x1, py_xor x (PBool (negb (dd =? 0))) = Ok x1 /\ as_shift x1 = Ok (Z.b2z b')).
        { unfold b'. destruct Hd as [-> | ->], Hb as [-> | ->], b; eexists; (split; [reflexivity|reflexivity]). }
        destruct X as (x1 & X & X2). rewrite X. cbn [bind]. exists (setv e v x1), x1.
        split; [reflexivity|]. split; [apply setv_same|]. split; [exact X2|]. split; [intros w N; apply setv_other; exact N|].
        apply csim_one. intros junk trunc st R. exists st. split; [|exact R]. cbn [c_exec_stmt]. rewrite LKV. cbn [bind]. rewrite X. reflexivity.
      - specialize (He eq_refl). subst dd. exists e, x. split; [reflexivity|]. split; [exact Ev|]. split; [|split; [auto|apply csim_nil]].
        unfold b'. cbn [Z.eqb negb]. destruct Hb as [-> | ->], b; reflexivity. }
    destruct X as (e1 & x1 & X & V1 & A1 & F1 & CX).
    assert (Hbit : bit_at d off = false) by (apply Z0; [cbn [valid]; lia|reflexivity]).
    destruct (put_bool buf d vs off b' S ltac:(lia) Hbit) as (buf' & d' & W & S' & (L & TS) & F & R).
    exists e1, buf', d', vs. split; [|split; [exact S'|split; [cbn [out_size fold_right]; lia|split; [exact F1|split; [exact F|split; [|split; [intros tr T; cbn [map]; rewrite app_nil_r; apply TS; exact T|]]]]]]].
    + rewrite exec_app, X. cbn [bind exec exec_stmt]. unfold the_builder, lookup.
      rewrite (F1 "builder"), Eb, V1 by congruence. cbn [bind]. rewrite A1. cbn [bind]. rewrite W. reflexivity.
    + intros o D VS G A. cbn [read_slot]. rewrite (R o D VS G A). cbn [bind]. eexists. split; [reflexivity|].
      exists b. split; [exact Hb|]. f_equal. unfold b'. destruct (negb (dd =? 0)); [|reflexivity].
      rewrite Bool.xorb_assoc. destruct b; reflexivity.
    + eapply csim_app; [exact CX|]. apply csim_one. intros junk trunc st RC.
      destruct (c_bool buf buf' (off / 8) (off mod 8) b' st) as (st' & W' & RC'); [lia|lia|exact W|exact RC|].
      exists st'. split; [|exact RC']. cbn [c_exec_stmt]. unfold the_builder, lookup.
      rewrite (F1 "builder"), Eb, V1 by congruence. cbn [bind]. rewrite (shift_truth _ _ A1). cbn [bind]. rewrite W'. reflexivity.
  - (* enum *) destruct Ha as ((z & Hz) & ->). destruct Hs as [Hs Hd]. cbn [slot_offset ty_pointer ty_size slot_default].
    destruct (int_exec Fh off ex dd v e buf d vs x z) as (e' & b' & d' & vs' & A1 & A2 & A3 & A4 & A5 & A6 & A7); try assumption.
    cbn [fsize] in *. replace (8 * (off * 2)) with (16 * off) in * by lia. change (8 * 2) with 16 in *.
    exists e', b', d', vs'. repeat (split; [assumption|]). split; [|exact A7]. intros o D VS G A. destruct (A6 o D VS G A) as (g & G1 & ->).
    exists (GInt z). split; [exact G1|]. exists z. auto.
  - (* text *) destruct Ha as (v0 & -> & T & L). rewrite SO by reflexivity.
    destruct (PTR (SText true (8 * (ds + off)) v) _ v0 eq_refl Hs (wr_text true x v0 T L) (text_val_wf _ _ _ T L))
      as (e' & b' & d' & vs' & A1 & A2 & A3 & A4 & A5 & A6 & A7).
    { cbn [exec_stmt]. rewrite BLD, ATP, LKV. cbn [bind]. destruct (as_bytes x); [cbn [bind]|reflexivity].
      destruct (alloc_text buf (8 * (ds + off)) a) as [[? ?]|]; reflexivity. }
    { intros junk trunc. exists (fun st i => c_wtext junk true st i x). split; [apply (wrc_text junk); assumption|].
      intros st1. cbn [c_exec_stmt]. rewrite BLD, ATP, LKV. reflexivity. }
    exists e', b', d', vs'. repeat (split; [assumption|]). split; [|exact A7]. intros o D VS G A.
    destruct (A6 o D VS G A) as (D' & VS' & O & V). cbn [read_slot].
    replace (off * 8) with (8 * off) by lia. destruct x; cbn [text_val] in T; try contradiction; subst v0.
    + rewrite (o_read_data_spec o D' VS' off None (-1) (Ok None) O Ho) by (rewrite V; reflexivity).
      exists GNone. split; [reflexivity|]. cbn [slot_same]. auto.
    + rewrite (o_read_data_spec o D' VS' off None (-1) (Ok (Some b)) O Ho).
      2:{ rewrite V. pose proof (blen_nonneg b). cbn [text_value vbytes Z.eqb Pos.eqb].
          replace ((0 <=? blen b + 1 + -1) && (-1 <=? 0)) with true by (symmetry; lia).
          do 3 f_equal. rewrite sub_app1 by lia. replace (blen b + 1 + -1) with (blen b) by lia. apply sub_all. }
      exists (GBytes b). split; [reflexivity|]. cbn [slot_same]. eauto.
  - (* data *) destruct Ha as (v0 & -> & T & L). rewrite SO by reflexivity.
    destruct (PTR (SText false (8 * (ds + off)) v) _ v0 eq_refl Hs (wr_text false x v0 T L) (text_val_wf _ _ _ T L))
      as (e' & b' & d' & vs' & A1 & A2 & A3 & A4 & A5 & A6 & A7).
    { cbn [exec_stmt]. rewrite BLD, ATP, LKV. cbn [bind]. destruct (as_bytes x); [cbn [bind]|reflexivity].
      destruct (alloc_data buf (8 * (ds + off)) a) as [[? ?]|]; reflexivity. }
    { intros junk trunc. exists (fun st i => c_wtext junk false st i x). split; [apply (wrc_text junk); assumption|].
      intros st1. cbn [c_exec_stmt]. rewrite BLD, ATP, LKV. reflexivity. }
    exists e', b', d', vs'. repeat (split; [assumption|]). split; [|exact A7]. intros o D VS G A.
    destruct (A6 o D VS G A) as (D' & VS' & O & V). cbn [read_slot].
    replace (off * 8) with (8 * off) by lia. destruct x; cbn [text_val] in T; try contradiction; subst v0.
    + rewrite (o_read_data_spec o D' VS' off None 0 (Ok None) O Ho) by (rewrite V; reflexivity).
      exists GNone. split; [reflexivity|]. cbn [slot_same]. auto.
    + rewrite (o_read_data_spec o D' VS' off None 0 (Ok (Some b)) O Ho).
      2:{ rewrite V. pose proof (blen_nonneg b). cbn [text_value vbytes Z.eqb Pos.eqb].
          replace ((0 <=? blen b + 0) && (0 <=? 0)) with true by (symmetry; lia).
          do 3 f_equal. replace (blen b + 0) with (blen b) by lia. apply sub_all. }
      exists (GBytes b). split; [reflexivity|]. cbn [slot_same]. eauto.
  - (* struct *) destruct Ha as (v0 & -> & T & L & Hf). rewrite SO by reflexivity.
    destruct (PTR (SStruct (8 * (ds + off)) v) _ v0 eq_refl Hs (wr_struct fuel x v0 T L Hf) (struct_val_wf _ _ T))
      as (e' & b' & d' & vs' & A1 & A2 & A3 & A4 & A5 & A6 & A7).
    { cbn [exec_stmt]. rewrite BLD, ATP, LKV. reflexivity. }
    { intros junk trunc. exists (fun st i => c_copy_struct_arg junk fuel st i x). split; [apply (wrc_struct junk trunc fuel); assumption|].
      intros st1. cbn [c_exec_stmt]. rewrite BLD, ATP, LKV. reflexivity. }
    exists e', b', d', vs'. repeat (split; [assumption|]). split; [|exact A7]. intros o D VS G A.
    destruct (A6 o D VS G A) as (D' & VS' & O & V). cbn [read_slot].
    replace (off * 8) with (8 * off) by lia. pose proof (o_read_struct_spec o D' VS' off O Ho) as RS. rewrite V in RS.
    destruct x; cbn [struct_val] in T; try contradiction.
    + subst v0. rewrite RS. exists GNone. split; [reflexivity|]. cbn [slot_same]. auto.
    + destruct T as (d0 & vs0 & (O0 & _) & ->). destruct RS as (o' & RS & O' & _). rewrite RS.
      exists (GObj o'). split; [reflexivity|]. cbn [slot_same]. right. exists o0, o'. repeat split. exists d0, vs0. auto.
  - (* list *) destruct Ha as (v0 & -> & T & L & Hf). rewrite SO by reflexivity.
    destruct (PTR (SList it (8 * (ds + off)) v) _ v0 eq_refl Hs (wr_list fuel it x v0 T L Hf) (list_val_wf _ _ _ T L))
      as (e' & b' & d' & vs' & A1 & A2 & A3 & A4 & A5 & A6 & A7).
    { cbn [exec_stmt]. rewrite BLD, ATP, LKV. reflexivity. }
    { intros junk trunc. exists (fun st i => c_copy_list junk trunc fuel it st i x). split; [apply (wrc_list junk trunc fuel); assumption|].
      intros st1. cbn [c_exec_stmt]. rewrite BLD, ATP, LKV. reflexivity. }
    exists e', b', d', vs'. repeat (split; [assumption|]). split; [|exact A7]. intros o D VS G A.
    destruct (A6 o D VS G A) as (D' & VS' & O & V). cbn [read_slot].
    replace (off * 8) with (8 * off) by lia.
    destruct (list_field_ok o D' VS' off it x v0 O Ho V T) as [(-> & R) | (N & l & R & SL')]; rewrite R.
    + exists GNone. split; [reflexivity|]. cbn [slot_same]. auto.
    + exists (GList l). split; [reflexivity|]. cbn [slot_same]. right. split; [exact N|]. eauto.
  - contradiction.
Qed.
End Slots.
