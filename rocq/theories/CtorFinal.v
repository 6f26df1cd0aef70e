(** The constructors of a struct class: what a call returns *)
From Verif Require Import Base Spec BaseFacts Ptr PtrFacts Segment SegmentFacts Builder Copy Enc EncFacts
  EncDen CopyFacts Struct List Query StructFacts ObjFacts CopyList ArgSpec CopyListFacts Ctor CtorSpec CtorStore
  BuilderC BuilderSim BuilderCFacts CRead CReadFacts CCopyList CopyListStrict CtorSlots CtorFacts CtorErr.
From Coq Require Import String ZifyBool ZifyNat.
From Coq Require Import Lists.List.
Local Notation length := Datatypes.length.
Open Scope string_scope.
Open Scope Z_scope.
Ltac Zify.zify_post_hook ::= Z.div_mod_to_equations.

(** ** The generated module *)

Lemma nodup_id (l : list string) : NoDup l -> nodup String.string_dec l = l.
Proof. intros N. apply nodup_fixed_point. exact N. Qed.

Lemma parses_ok ds ps f : field_ok ds ps f -> parses f = true.
Proof.
  induction f as [n o dc t off ex d|n o dc nl u fs IH] using field_ind'; intros FO; [reflexivity|].
  cbn [field_ok] in FO. destruct FO as (_ & AF & NL). apply all_of_forall in AF. cbn [parses].
  apply andb_true_intro. split.
  - destruct nl; [reflexivity|]. exact NL.
  - clear NL. induction fs as [|g r IHr]; [reflexivity|]. inversion IH; subst. inversion AF; subst.
    rewrite IHr by assumption. rewrite (H1 H3). rewrite orb_true_r. reflexivity.
Qed.

Lemma c_init_same s ds ps o : 0 <= ds < 2 ^ 16 -> 0 <= ps < 2 ^ 16 -> init_from_buffer s 0 ds ps = Ok o -> c_init_from_buffer s 0 ds ps = Ok o.
Proof.
  intros Hd Hp. unfold init_from_buffer, c_init_from_buffer. cbn [o_off o_ptrs].
  rewrite !c_mul_small, !c_add_small by lia. replace (0 + ds * 8) with (0 + ds * 8) by lia. unfold slen. auto.
Qed.

Section Run.
Variable fuel : nat.
Variable sn : struct_node.
Hypothesis L : layout_ok sn.
Notation ds := (sn_ds sn).
Notation ps := (sn_ps sn).
Notation fs := (sn_fields sn).
Notation top := (filter visible (sn_fields sn)).

Lemma names_flat : concat_of (vars "") fs = flat_map (vars "") top.
Proof. apply concat_of_flat. Qed.

Lemma heads_in n : In n (map f_name top) -> In n (flat_map (vars "") top).
Proof.
  intros H. apply in_map_iff in H. destruct H as (g & <- & Hg). apply in_flat_map. exists g. split; [exact Hg|].
  rewrite vars_eq. left. reflexivity.
Qed.

Lemma names_nodup : NoDup (map f_name top).
Proof.
  pose proof (lo_names _ L) as N. rewrite names_flat in N. inversion N as [|? ? _ N2]; subst. inversion N2 as [|? ? _ N4]; subst.
  destruct (NoDup_app_inv _ _ N4) as (_ & D & _). clear - D. revert D. generalize top. intros gs.
  induction gs as [|g gs IHg]; cbn [flat_map map]; intros N; [constructor|]. rewrite vars_eq in N. cbn [app] in N.
  inversion N as [|? ? N1 N2]; subst. destruct (NoDup_app_inv _ _ N2) as (D1 & D2 & D3). constructor; [|apply IHg; exact D2].
  intros I. apply N1, in_or_app. right. apply in_map_iff in I. destruct I as (h & E & Ih). apply in_flat_map.
  exists h. split; [exact Ih|]. rewrite vars_eq. left. exact E.
Qed.

Lemma gen_ok : gen sn = Ok (map (fun u => SNone (curtag u)) (all_unions sn) ++
        emit_fields ds (uctx "anonymous" (sn_utag sn)) "" fs)%list.
Proof.
  unfold gen. rewrite (nodup_id _ names_nodup). destruct (list_eq_dec _ _ _) as [_|X]; [|congruence].
  assert (P : forallb parses top = true).
  { apply forallb_forall. intros f If. apply filter_In in If. destruct If as [If _].
    pose proof (lo_fields _ L) as AF. apply all_of_forall in AF. rewrite Forall_forall in AF. eapply parses_ok. apply AF. exact If. }
  assert (Q : params_ok sn = true).
  { apply forallb_forall. intros f If. apply filter_In in If. destruct If as [If Vf].
    destruct (lo_params _ L f If Vf) as [N1 N2]. apply andb_true_intro. split.
    - apply negb_true_iff, String.eqb_neq. exact N1.
    - apply negb_true_iff. destruct (existsb is_member top) eqn:M; [|reflexivity]. cbn [andb]. apply String.eqb_neq, N2.
      apply existsb_exists in M. destruct M as (g & Ig & Mg). apply existsb_exists. exists g. split; [|exact Mg].
      apply filter_In in Ig. apply Ig. }
  rewrite P, Q. reflexivity.
Qed.

(** The tags are set to None first *)
Lemma none_loop l : forall (e : env) buf, exists e' : env,
  exec fuel (map (fun u => SNone (curtag u)) l) (e, buf) = Ok (e', buf) /\
  (forall w, ~ In w (map curtag l) -> e' w = e w) /\ (forall w, In w (map curtag l) -> e' w = Some PNone) /\
  csim fuel (map (fun u => SNone (curtag u)) l) e buf e' buf.
Proof.
  induction l as [|u l IH]; intros e buf; cbn [map exec exec_stmt bind].
  - exists e. split; [reflexivity|]. split; [auto|]. split; [intros w []|apply csim_nil].
  - destruct (IH (setv e (curtag u) PNone) buf) as (e' & E & F & G & C). exists e'. split; [exact E|]. split; [|split].
    + intros w N. rewrite F by (intros I; apply N; right; exact I). apply setv_other. intros X. apply N. left. symmetry. exact X.
    + intros w [<-|I]; [|apply G; exact I].
      destruct (in_dec String.string_dec (curtag u) (map curtag l)) as [I|I]; [apply G; exact I|].
      rewrite F by exact I. apply setv_same.
    + intros junk trunc st R. cbn [c_exec c_exec_stmt bind]. apply C. exact R.
Qed.

(** The state when the fields are about to be written *)
Lemma start xs : length xs = length top ->
  exists e : env,
    run_new fuel sn xs = (do (e, buf) <- exec fuel (emit_fields ds (uctx "anonymous" (sn_utag sn)) "" fs) (e, zeros (8 * (ds + ps))); Ok buf) /\
    (forall e' buf', csim fuel (emit_fields ds (uctx "anonymous" (sn_utag sn)) "" fs) e (zeros (8 * (ds + ps))) e' buf' ->
       forall junk trunc, c_run_new junk trunc fuel sn xs = Ok buf') /\
    ((forall junk trunc st, Rc (zeros (8 * (ds + ps))) st ->
       c_exec junk trunc fuel (emit_fields ds (uctx "anonymous" (sn_utag sn)) "" fs) (e, st) = Err TypeError) ->
       forall junk trunc, c_run_new junk trunc fuel sn xs = Err TypeError) /\
    e "builder" = Some PBuilder /\ e "pos" = Some (PInt 0) /\
    Forall2 (fun v x => e v = Some x) (map (fun g => varname "" (f_name g)) top) xs /\
    (forall f c, In f top -> In c (ctags "" f) -> e c = Some PNone) /\
    (sn_utag sn <> None -> e (curtag "anonymous") = Some PNone).
Proof.
  intros LX. pose proof (lo_ds _ L) as Hds. pose proof (lo_ps _ L) as Hps.
  pose proof (lo_names _ L) as N. rewrite names_flat in N.
  set (ct := match sn_utag sn with Some _ => [curtag "anonymous"] | None => [] end) in *.
  destruct (set_all_ok (map f_name top) (fun _ => None) xs names_nodup) as (e0 & SA & F0 & G0).
  { rewrite map_length. symmetry. exact LX. }
  set (e1 := setv (setv e0 "builder" PBuilder) "pos" (PInt 0)).
  destruct (none_loop (all_unions sn) e1 (zeros (8 * (ds + ps)))) as (e2 & E2 & F2 & G2 & C2).
  assert (CT : forall c, In c (map curtag (all_unions sn)) ->
             In c ct \/ exists f, In f top /\ In c (ctags "" f)).
  { intros c I. unfold all_unions in I. rewrite map_app in I. apply in_app_or in I. destruct I as [I|I].
    - left. unfold ct. destruct (sn_utag sn); exact I.
    - right. rewrite map_flat in I. apply in_flat_map in I. exact I. }
  assert (CTF : forall c, In c (map curtag (all_unions sn)) -> In c (ct ++ flat_map (fun g => rest_vars "" g) top)%list).
  { intros c I. apply in_or_app. destruct (CT c I) as [I1|(f & If & Ic)]; [left; exact I1|]. right.
    apply in_flat_map. exists f. split; [exact If|apply ctags_rest; exact Ic]. }
  assert (NH : forall c, In c (map curtag (all_unions sn)) -> ~ In c (map f_name top) /\ c <> "builder" /\ c <> "pos").
  { intros c I. inversion N as [|? ? N1 N2]; subst. inversion N2 as [|? ? N3 N4]; subst.
    destruct (NoDup_app_inv _ _ N4) as (D1 & D2 & D3).
    assert (IV : In c (ct ++ flat_map (vars "") top)%list).
    { specialize (CTF c I). apply in_app_or in CTF. apply in_or_app. destruct CTF as [X|X]; [left; exact X|right].
      apply in_flat_map in X. destruct X as (f & If & Ic). apply in_flat_map. exists f. split; [exact If|]. rewrite vars_eq. right. exact Ic. }
    split; [|split].
    - intros H. destruct (CT c I) as [I1|(f & If & Ic)].
      + eapply D3; [exact I1|]. apply heads_in. exact H.
      + assert (HF : flat_map (vars "") top = flat_map (fun g => f_name g :: rest_vars "" g) top).
        { apply flat_map_ext. intros g. apply vars_eq. }
        rewrite HF in D2. eapply (heads_tails _ _ _ c D2 H). apply in_flat_map. exists f. split; [exact If|apply ctags_rest; exact Ic].
    - intros ->. apply N1. right. exact IV.
    - intros ->. apply N3. exact IV. }
  assert (BP : forall n, In n (map f_name top) -> n <> "builder" /\ n <> "pos").
  { intros n I. inversion N as [|? ? N1 N2]; subst. inversion N2 as [|? ? N3 N4]; subst. apply heads_in in I. split; intros ->.
    - apply N1. right. apply in_or_app. right. exact I.
    - apply N3. apply in_or_app. right. exact I. }
  exists e2. split; [|split; [|split; [|split; [|split; [|split; [|split]]]]]].
  - unfold run_new. rewrite gen_ok. cbn [bind]. rewrite SA. unfold allocate. change (blen (@nil byte)) with 0.
    change ([] ++ zeros ((ds + ps) * 8))%list with (zeros ((ds + ps) * 8)). rewrite (Z.mul_comm (ds + ps) 8).
    fold e1. rewrite exec_app, E2. cbn [bind]. reflexivity.
  - intros e' buf' C junk trunc. unfold c_run_new. rewrite gen_ok. cbn [bind].
    assert (NB : existsb (fun n => String.eqb n "builder" || String.eqb n "pos") (map f_name top) = false).
    { apply not_true_is_false. intros X. apply existsb_exists in X. destruct X as (n & In & X). destruct (BP n In) as [B1 B2].
      apply String.eqb_neq in B1, B2. rewrite B1, B2 in X. discriminate X. }
    rewrite NB, SA. destruct (Rc_allocate junk [] (c_init 512) ((ds + ps) * 8) (Rc_init 512 ltac:(lia)) ltac:(lia)) as [S F].
    destruct (c_allocate junk (c_init 512) ((ds + ps) * 8)) as [st pos]. cbn [fst snd] in S, F. change (blen (@nil byte)) with 0 in S. subst pos.
    change ([] ++ zeros ((ds + ps) * 8))%list with (zeros ((ds + ps) * 8)) in F. rewrite (Z.mul_comm (ds + ps) 8) in F. fold e1.
    destruct (csim_app fuel _ _ _ _ _ _ _ _ C2 C junk trunc st F) as (st' & E & R). rewrite E. cbn [bind].
    f_equal. apply Rc_string. exact R.
  - intros C junk trunc. unfold c_run_new. rewrite gen_ok. cbn [bind].
    assert (NB : existsb (fun n => String.eqb n "builder" || String.eqb n "pos") (map f_name top) = false).
    { apply not_true_is_false. intros X. apply existsb_exists in X. destruct X as (n & In & X). destruct (BP n In) as [B1 B2].
      apply String.eqb_neq in B1, B2. rewrite B1, B2 in X. discriminate X. }
    rewrite NB, SA. destruct (Rc_allocate junk [] (c_init 512) ((ds + ps) * 8) (Rc_init 512 ltac:(lia)) ltac:(lia)) as [S F].
    destruct (c_allocate junk (c_init 512) ((ds + ps) * 8)) as [st pos]. cbn [fst snd] in S, F. change (blen (@nil byte)) with 0 in S. subst pos.
    change ([] ++ zeros ((ds + ps) * 8))%list with (zeros ((ds + ps) * 8)) in F. rewrite (Z.mul_comm (ds + ps) 8) in F. fold e1.
    destruct (C2 junk trunc st F) as (st' & E & R). rewrite c_exec_app, E. cbn [bind]. rewrite (C junk trunc st' R). reflexivity.
  - rewrite F2; [reflexivity|]. intros I. destruct (NH _ I) as (_ & X & _). congruence.
  - rewrite F2; [reflexivity|]. intros I. destruct (NH _ I) as (_ & _ & X). congruence.
  - change (map (fun g => varname "" (f_name g)) top) with (map f_name top).
    assert (EV : forall v, In v (map f_name top) -> e2 v = e0 v).
    { intros v Iv. rewrite F2 by (intros I; apply (proj1 (NH _ I)); exact Iv).
      destruct (BP v Iv) as [B1 B2]. unfold e1. rewrite !setv_other by assumption. reflexivity. }
    clear - G0 EV. induction G0 as [|v x vs xs E G IH]; [constructor|]. constructor.
    + rewrite EV by (left; reflexivity). exact E.
    + apply IH. intros w Iw. apply EV. right. exact Iw.
  - intros f c If Ic. apply G2. unfold all_unions. rewrite map_app, map_flat. apply in_or_app. right.
    apply in_flat_map. exists f. split; [exact If|exact Ic].
  - intros NU. apply G2. unfold all_unions. rewrite map_app. apply in_or_app. left.
    destruct (sn_utag sn); [left; reflexivity|congruence].
Qed.

Lemma args_len P xs vals : args_of P fs xs vals -> length xs = length top.
Proof. intros A. destruct (args_of_items _ _ _ _ A) as (l' & LF & <- & _). rewrite <- LF, !map_length. reflexivity. Qed.

Lemma zero_all R : zero_on ds ps R (zeros (8 * ds)).
Proof.
  pose proof (lo_ds _ L) as Hds. intros i V _. unfold bit_at, valid in *.
  rewrite getb_zeros by lia. change (bZ x00) with 0. apply Z.testbit_0_l.
Qed.

Lemma run_new_ok xs vals : args_ok fuel fs xs vals -> 8 * (ds + ps) + out_size vals <= 2 ^ 32 ->
  exists buf d vs, run_new fuel sn xs = Ok buf /\
    init_from_buffer {| sbuf := buf; soffs := None |} 0 ds ps = Ok (root ds ps buf) /\
    obj_den (root ds ps buf) d vs /\ blen d = 8 * ds /\ blen vs = ps /\
    scope_reads (root ds ps buf) (sn_utag sn) fs xs /\
    store ds ps buf d vs /\ shape ds ps buf (combine (slots_of ptr_slots fs xs) vals) /\
    blen buf = 8 * (ds + ps) + out_size vals /\
    (forall junk trunc, c_run_new junk trunc fuel sn xs = Ok buf) /\
    c_init_from_buffer {| sbuf := buf; soffs := None |} 0 ds ps = Ok (root ds ps buf).
Proof.
  intros (AO & GL) Hl. pose proof (lo_ds _ L) as Hds. pose proof (lo_ps _ L) as Hps.
  destruct (start xs (args_len _ _ _ AO)) as (e & R & RC & RX & Eb & Ep & Ev & Ec & Et).
  pose proof (lo_names _ L) as N. rewrite names_flat in N.
  pose proof (lo_fields _ L) as AF. apply all_of_forall in AF.
  destruct (scope_full ds ps Hds Hps fuel "anonymous" "" (sn_utag sn) fs xs vals e
              (zeros (8 * (ds + ps))) (zeros (8 * ds)) (repeat VNull (Z.to_nat ps)))
    as (e1 & b1 & d1 & vs1 & E1 & S1 & L1 & W1 & F1 & Q1 & T1 & C1); try assumption.
  - exact (lo_scope _ L).
  - rewrite Forall_forall. intros f _. apply ok_all; assumption.
  - apply store_init; assumption.
  - apply zero_all.
  - rewrite blen_zeros by lia. lia.
  - rewrite R, E1. cbn [bind]. exists b1, d1, vs1. split; [reflexivity|].
    assert (I : init_from_buffer {| sbuf := b1; soffs := None |} 0 ds ps = Ok (root ds ps b1)).
    { apply root_init; try assumption. apply (st_len _ _ _ _ _ S1). }
    split; [exact I|]. pose proof (store_den _ _ Hds Hps _ _ _ S1) as D1. split; [exact D1|].
    split; [apply (st_d _ _ _ _ _ S1)|]. split; [apply (st_vs _ _ _ _ _ S1)|].
    split; [|split; [exact S1|split; [apply (T1 []), shape_init|split; [rewrite blen_zeros in L1 by lia; lia|split; [exact (RC e1 b1 C1)|]]]]].
    2:{ apply c_init_same; [lia|lia|exact I]. }
    apply (Q1 (root ds ps b1) d1 vs1).
    + split; [exact D1|]. split; [apply (st_d _ _ _ _ _ S1)|]. exact I.
    + intros p _ _. apply same_refl.
Qed.

Lemma run_new_two xs vals : args_of (arg_valid fuel) fs xs vals -> two_given fs xs -> 8 * (ds + ps) + out_size vals <= 2 ^ 32 ->
  run_new fuel sn xs = Err TypeError /\ forall junk trunc, c_run_new junk trunc fuel sn xs = Err TypeError.
Proof.
  intros AO TG Hl. pose proof (lo_ds _ L) as Hds. pose proof (lo_ps _ L) as Hps.
  destruct (start xs (args_len _ _ _ AO)) as (e & R & RC & RX & Eb & Ep & Ev & Ec & Et).
  pose proof (lo_names _ L) as N. rewrite names_flat in N.
  pose proof (lo_fields _ L) as AF. apply all_of_forall in AF.
  assert (B : both_err fuel (emit_fields ds (uctx "anonymous" (sn_utag sn)) "" fs) e (zeros (8 * (ds + ps)))).
  2:{ destruct B as [B1 B2]. split; [rewrite R, B1; reflexivity|]. exact (RX B2). }
  eapply scope_err_full; try eassumption; try reflexivity.
  - exact (lo_scope _ L).
  - rewrite Forall_forall. intros f _. apply err_all; assumption.
  - apply store_init; assumption.
  - apply zero_all.
  - rewrite blen_zeros by lia. lia.
Qed.
End Run.
