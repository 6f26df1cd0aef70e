(** C27, C28, C35, C43, C44: reading. *)
From Verif Require Import Base Spec BaseFacts Ptr PtrFacts Segment SegmentFacts Builder Copy Endof Enc EncFacts
  Struct Message List Query StructFacts MessageFacts AnyPtr.
From Coq Require Import ZifyBool ZifyNat.
Ltac Zify.zify_post_hook ::= Z.div_mod_to_equations.

(** ** C27: values up to trailing zeros and trailing nulls *)

(** [l] without its trailing elements satisfying [z] *)
Fixpoint rstrip {A} (z : A -> bool) (l : list A) : list A :=
  match l with
  | [] => []
  | x :: r => match rstrip z r with
              | [] => if z x then [] else [x]
              | r' => x :: r'
              end
  end.
Definition is_zero (b : byte) : bool := Byte.eqb b x00.
Definition is_null (v : value) : bool := match v with VNull => true | _ => false end.

(** The value with every struct section cut after its last non-zero byte and
    its last non-null pointer, at every depth. *)
Fixpoint strip (v : value) : value :=
  match v with
  | VNull => VNull
  | VStruct d vs => VStruct (rstrip is_zero d) (rstrip is_null (map strip vs))
  | VList t c b => VList t c b
  | VPtrs vs => VPtrs (map strip vs)
  | VComp ds ps items slack =>
      VComp 0 0 (map (fun it => (rstrip is_zero (fst it), rstrip is_null (map strip (snd it)))) items) []
  end.

Lemma rstrip_app {A} (z : A -> bool) l : exists t, l = rstrip z l ++ t /\ Forall (fun x => z x = true) t.
Proof.
  induction l as [|x l (t & E & F)]; [exists []; auto|]. cbn [rstrip].
  destruct (rstrip z l) as [|y r] eqn:R.
  - destruct (z x) eqn:Z.
    + exists (x :: t). cbn [app] in *. subst t. auto.
    + exists t. cbn [app] in *. subst t. auto.
  - exists t. split; [|exact F]. cbn [app] in *. rewrite E at 1. reflexivity.
Qed.

Lemma is_zero_eq b : is_zero b = true -> b = x00.
Proof. unfold is_zero. destruct b; cbn; intros H; try discriminate; reflexivity. Qed.

Lemma le_dec_zeros t : Forall (fun b => is_zero b = true) t -> le_dec t = 0.
Proof.
  intros F. induction F as [|b t Hb F IH]; [reflexivity|]. cbn [le_dec]. rewrite (is_zero_eq _ Hb), IH. reflexivity.
Qed.
Lemma le_dec_app a t : le_dec (a ++ t) = le_dec a + 256 ^ blen a * le_dec t.
Proof.
  induction a as [|x a IH]; [cbn [app le_dec]; change (blen (@nil byte)) with 0; lia|].
  cbn [app le_dec]. rewrite IH, blen_cons, Z.pow_add_r by (pose proof (blen_nonneg a); lia). lia.
Qed.

Lemma Forall_skipn {A} (P : A -> Prop) n l : Forall P l -> Forall P (skipn n l).
Proof. intros F. revert l F. induction n; intros l F; [exact F|]. destruct F; [constructor|]. cbn. auto. Qed.
Lemma Forall_firstn {A} (P : A -> Prop) n l : Forall P l -> Forall P (firstn n l).
Proof. intros F. revert n. induction F; intros [|n]; cbn; constructor; auto. Qed.

Lemma v_prim_strip d off f : 0 <= off -> v_prim (rstrip is_zero d) off f = v_prim d off f.
Proof.
  intros Ho. destruct (rstrip_app is_zero d) as (t & E & F). set (a := rstrip is_zero d) in *.
  unfold v_prim. rewrite E, blen_app. pose proof (blen_nonneg t). pose proof (blen_nonneg a).
  assert (SUB : le_dec (sub (a ++ t) off (fsize f)) = le_dec (sub a off (fsize f))).
  { unfold sub. rewrite skipn_app, firstn_app, le_dec_app.
    rewrite (le_dec_zeros (firstn _ (skipn _ t))); [lia|]. apply Forall_firstn, Forall_skipn, F. }
  assert (FD : fdec f (sub (a ++ t) off (fsize f)) = fdec f (sub a off (fsize f))).
  { unfold fdec. rewrite SUB. reflexivity. }
  assert (Z0 : blen a <= off -> fdec f (sub a off (fsize f)) = 0).
  { intros H1. unfold sub. rewrite skipn_all2 by (unfold blen in *; lia). rewrite firstn_nil.
    unfold fdec. destruct (fsigned f); [|reflexivity]. destruct f; reflexivity. }
  destruct (Z.leb_spec (blen a) off).
  - destruct (Z.leb_spec (blen a + blen t) off); [reflexivity|]. rewrite FD. symmetry. apply Z0. lia.
  - destruct (Z.leb_spec (blen a + blen t) off); [lia|]. rewrite FD. reflexivity.
Qed.

Lemma v_ptr_strip vs k : v_ptr (rstrip is_null (map strip vs)) k = strip (v_ptr vs k).
Proof.
  unfold v_ptr. rewrite <- (map_nth strip vs VNull). change (strip VNull) with VNull.
  destruct (rstrip_app is_null (map strip vs)) as (t & E & F).
  set (a := rstrip is_null (map strip vs)) in *. rewrite E.
  destruct (Nat.lt_ge_cases (Z.to_nat k) (length a)).
  - rewrite app_nth1 by lia. reflexivity.
  - rewrite app_nth2 by lia. rewrite nth_overflow by lia.
    destruct (nth_in_or_default (Z.to_nat k - length a) t VNull) as [I|E']; [|symmetry; exact E'].
    rewrite Forall_forall in F. specialize (F _ I). destruct (nth _ t VNull); try discriminate. reflexivity.
Qed.

Lemma v_ptr_map vs k : v_ptr (map strip vs) k = strip (v_ptr vs k).
Proof. unfold v_ptr. rewrite <- (map_nth strip vs VNull). reflexivity. Qed.

Lemma vbytes_strip v dflt add : vbytes (strip v) dflt add = vbytes v dflt add.
Proof. destruct v; reflexivity. Qed.

Lemma vcount_strip v : vcount (strip v) = vcount v.
Proof. destruct v; cbn [strip vcount]; unfold blen; rewrite ?map_length; reflexivity. Qed.

Definition strip_item (x : vitem) : vitem :=
  match x with
  | VIObj d vs => VIObj (rstrip is_zero d) (rstrip is_null (map strip vs))
  | VIList v => VIList (strip v)
  | x => x
  end.

Lemma v_item_strip t v i : v_item t (strip v) i = option_map strip_item (v_item t v i).
Proof.
  destruct t as [| |f|dbl|a b|add|inner], v as [|d vs|tg c b0|vs|ds ps items sl]; cbn [v_item strip]; try reflexivity.
  - destruct (tg =? 1); reflexivity.
  - destruct (tg =? tag_of f); reflexivity.
  - destruct (tg =? (if dbl then 5 else 4)); reflexivity.
  - unfold bytes in *. rewrite nth_error_map. destruct (nth_error items (Z.to_nat i)) as [[d vs]|]; reflexivity.
  - rewrite v_ptr_map, vbytes_strip. destruct (vbytes (v_ptr vs i) None add); reflexivity.
  - rewrite v_ptr_map. destruct (v_ptr vs i); reflexivity.
Qed.

Lemma vrun_strip :
  (forall q d vs, vrun_s q (rstrip is_zero d) (rstrip is_null (map strip vs)) = vrun_s q d vs) /\
  (forall q t v, vrun_l q t (strip v) = vrun_l q t v).
Proof.
  apply query_mut.
  - intros off f d vs. cbn [vrun_s]. destruct (Z.leb_spec 0 off); [|reflexivity].
    rewrite v_prim_strip by lia. reflexivity.
  - intros off mask d vs. cbn [vrun_s]. destruct (Z.leb_spec 0 off); [|reflexivity].
    rewrite v_prim_strip by lia. reflexivity.
  - intros k dflt add d vs. cbn [vrun_s]. rewrite v_ptr_strip, vbytes_strip. reflexivity.
  - intros k q IH d vs. cbn [vrun_s]. rewrite v_ptr_strip. destruct (v_ptr vs k); cbn [strip]; try reflexivity.
    rewrite IH. reflexivity.
  - intros k t q IH d vs. cbn [vrun_s]. rewrite v_ptr_strip.
    specialize (IH t (v_ptr vs k)). destruct (v_ptr vs k); cbn [strip] in *; try reflexivity; rewrite IH; reflexivity.
  - intros t v. cbn [vrun_l]. rewrite vcount_strip. reflexivity.
  - intros i t v. cbn [vrun_l]. rewrite vcount_strip. destruct (v_index (vcount v) i) as [j|]; [|reflexivity].
    rewrite v_item_strip. destruct (v_item t v j) as [[| | | | |[|]|]|]; reflexivity.
  - intros i q IH t v. cbn [vrun_l]. rewrite vcount_strip. destruct (v_index (vcount v) i) as [j|]; [|reflexivity].
    rewrite v_item_strip. destruct (v_item t v j) as [[| | | |d vs|[|]|]|]; cbn [option_map strip_item]; try reflexivity.
    apply IH.
  - intros i q IH t v. cbn [vrun_l]. rewrite vcount_strip. destruct (v_index (vcount v) i) as [j|]; [|reflexivity].
    rewrite v_item_strip. destruct (v_item t v j) as [[| | | |d vs|[|]|]|]; cbn [option_map strip_item]; try reflexivity.
    apply IH.
Qed.

Lemma run_padding o1 d1 vs1 o2 d2 vs2 q r :
  obj_den o1 d1 vs1 -> obj_den o2 d2 vs2 -> strip (VStruct d1 vs1) = strip (VStruct d2 vs2) ->
  vrun_s q d1 vs1 = Some r -> run_s q o1 = r /\ run_s q o2 = r.
Proof.
  intros O1 O2 E V. split; [apply (proj1 run_value _ _ _ _ _ O1 V)|].
  cbn [strip] in E. injection E as E1 E2.
  apply (proj1 run_value q o2 d2 vs2 r O2). rewrite <- (proj1 vrun_strip q d2 vs2), <- E1, <- E2, (proj1 vrun_strip). exact V.
Qed.

(** ** fields beyond the sections *)
Lemma beyond_data o off f mask : 8 * o_ds o <= off ->
  o_read_primitive o off f = Ok 0 /\ o_read_bit o off mask = Ok false.
Proof.
  intros H. assert (E : forall g, o_read_primitive o off g = Ok 0).
  { intros g. unfold o_read_primitive. replace (o_ds o * 8 <=? off) with true by (symmetry; lia). reflexivity. }
  split; [apply E|]. unfold o_read_bit. rewrite E. reflexivity.
Qed.
Lemma beyond_ptrs o k t dflt add : o_ps o <= k ->
  o_read_struct o (8 * k) = Ok None /\ o_read_list o (8 * k) t = Ok None /\ o_read_data o (8 * k) dflt add = Ok dflt.
Proof.
  intros H. assert (E : o_resolve o (8 * k) = Ok (8 * k + o_ptrs o, 0)).
  { unfold o_resolve, o_read_fast_ptr. replace (o_ps o * 8 <=? 8 * k) with true by (symmetry; lia). reflexivity. }
  unfold o_read_struct, o_read_list, o_read_data. rewrite E. auto.
Qed.

(** ** larger objects: the fields the reader knows *)
Definition known (q : query) (nd np : Z) : Prop :=
  match q with
  | QPrim off f => 0 <= off /\ off + fsize f <= nd
  | QBit off _ => 0 <= off < nd
  | QBytes k _ _ | QStruct k _ | QList k _ _ => 0 <= k < np
  end.

Lemma vrun_known q d vs d' vs' :
  known q (blen d) (blen vs) -> vrun_s q (d ++ d') (vs ++ vs') = vrun_s q d vs.
Proof.
  assert (VP : forall off f, 0 <= off -> off + fsize f <= blen d -> v_prim (d ++ d') off f = v_prim d off f).
  { intros off f H1 H2. unfold v_prim. rewrite blen_app. pose proof (blen_nonneg d'). pose proof (fsize_pos f).
    replace (blen d + blen d' <=? off) with false by (symmetry; lia).
    replace (blen d <=? off) with false by (symmetry; lia). rewrite sub_app1 by lia. reflexivity. }
  assert (VV : forall k, 0 <= k < blen vs -> v_ptr (vs ++ vs') k = v_ptr vs k).
  { intros k H. unfold v_ptr. apply app_nth1. unfold blen in H. lia. }
  destruct q as [off f|off m|k df add|k q|k t q]; cbn [known vrun_s]; intros H.
  - rewrite VP by lia. reflexivity.
  - rewrite VP by (cbn [fsize]; lia). reflexivity.
  - rewrite VV by lia. reflexivity.
  - rewrite VV by lia. reflexivity.
  - rewrite VV by lia. reflexivity.
Qed.

Lemma run_known q o1 o2 d vs d' vs' r :
  obj_den o1 d vs -> obj_den o2 (d ++ d') (vs ++ vs') -> known q (blen d) (blen vs) ->
  vrun_s q d vs = Some r -> run_s q o1 = r /\ run_s q o2 = r.
Proof.
  intros O1 O2 K V. split; [apply (proj1 run_value _ _ _ _ _ O1 V)|].
  apply (proj1 run_value _ _ _ _ _ O2). rewrite vrun_known by exact K. exact V.
Qed.

(** ** C28 *)
Lemma run_same o1 o2 d vs q r :
  obj_den o1 d vs -> obj_den o2 d vs -> vrun_s q d vs = Some r -> run_s q o1 = r /\ run_s q o2 = r.
Proof. intros O1 O2 V. split; eapply (proj1 run_value); eassumption. Qed.

(** ** C43 *)
Lemma init_ok o d vs : obj_den o d vs -> init_from_buffer (o_seg o) (o_off o) (o_ds o) (o_ps o) = Ok o.
Proof.
  intros (E & Hd & Hp & B & D). unfold init_from_buffer. cbn [o_off o_ptrs].
  apply bytes_at_some in B. destruct B as (B1 & B2 & B3 & _). pose proof (den_ptrs_bounds _ _ _ _ D) as (P1 & P2).
  unfold slen in *.
  replace (o_off o + o_ds o * 8 <=? blen (sbuf (o_seg o))) with true by (symmetry; lia).
  replace (o_off o + o_ds o * 8 + o_ps o * 8 <=? blen (sbuf (o_seg o))) with true by (symmetry; lia).
  cbn [py_assert bind]. f_equal. destruct o as [s off pt ds ps]; cbn [o_seg o_off o_ptrs o_ds o_ps] in *.
  f_equal. lia.
Qed.

Lemma init_roundtrip s off ds ps o : init_from_buffer s off ds ps = Ok o ->
  o_unreduce (o_reduce o) = Ok o /\ o_raw_loads (o_raw_dumps o) = Ok o.
Proof.
  intros H. assert (E : o = {| o_seg := s; o_off := off; o_ptrs := off + ds * 8; o_ds := ds; o_ps := ps |}).
  { unfold init_from_buffer in H. apply bind_ok in H. destruct H as (? & _ & H).
    apply bind_ok in H. destruct H as (? & _ & H). apply ok_inj in H. auto. }
  subst o. split; [exact H|].
  unfold o_raw_loads, o_raw_dumps. cbn [o_seg o_off o_ds o_ps]. destruct s as [b [t|]]; exact H.
Qed.

Lemma pickle_roundtrip o d vs : obj_den o d vs ->
  o_unreduce (o_reduce o) = Ok o /\ o_raw_loads (o_raw_dumps o) = Ok o.
Proof. intros O. apply (init_roundtrip _ _ _ _ _ (init_ok o d vs O)). Qed.

(** ** C44 *)
Lemma ap_kind o d vs k : obj_den o d vs -> 0 <= k ->
  (forall p, 0 <= k < o_ps o -> word_at (o_seg o) (o_ptrs o + 8 * k) = Some p -> p_kind p <> 2) ->
  ap_is_struct o (8 * k) = Ok (match v_ptr vs k with VStruct _ _ | VNull => true | _ => false end) /\
  ap_is_list o (8 * k) = Ok (match v_ptr vs k with VList _ _ _ | VPtrs _ | VComp _ _ _ _ => true | _ => false end) /\
  ap_is_text o (8 * k) = Ok (match v_ptr vs k with VList t _ _ => t =? 2 | _ => false end).
Proof.
  intros O Hk NF. destruct (o_read_fast_ptr_spec o d vs k O Hk) as (p & R & D & W).
  unfold ap_is_struct, ap_is_list, ap_is_text. rewrite R. cbn [bind]. rewrite kind_spec, size_tag_spec.
  destruct (Z.eq_dec p 0) as [->|N].
  - inversion D; subst; try (cbn in *; congruence); auto.
  - assert (K : p_kind p <> 2).
    { apply NF; [|apply W, N]. unfold o_read_fast_ptr in R. destruct (Z.leb_spec (o_ps o * 8) (8 * k)); [|lia].
      apply ok_inj in R. congruence. }
    pose proof (den_kind0 _ _ _ _ D K) as DK.
    inversion D; subst; try congruence.
    + match goal with H : p_kind p = 0 |- _ => rewrite H end. auto.
    + match goal with H : p_kind p = 1 |- _ => rewrite H end. auto.
    + match goal with H : p_kind p = 1 |- _ => rewrite H end.
      match goal with H : p_ltag p = 6 |- _ => rewrite H end. auto.
    + match goal with H : p_kind p = 1 |- _ => rewrite H end.
      match goal with H : p_ltag p = 7 |- _ => rewrite H end. auto.
Qed.
