(** Property theorems C73: floats.

    Reading guide. A Python float is 64 bits ([bits double b], FloatSpec.v);
    [fvalue double b] is the number it stands for, times 2^1074 (an integer,
    whatever the float); [finite], [infinite], [is_nan] classify it and
    [neg] is its sign (of -0.0 too). [nearest single v p] says that [p] is the
    Float32 nearest to the number [v], with an even pattern in case of a tie;
    [overflow32], [overflow64] are where the numbers start which are nearer to
    the power of two after the largest number of the format than to that one.
    [float_val x b]: the argument [x] is the float [b], or an int or bool
    which Python converts to [b]. [seen g]: the Python float which the getter
    returns, as 64 bits. *)
From Verif Require FloatBits FloatSpec FloatFacts.
From Verif Require Import Base Spec BaseFacts Ptr Segment SegmentFacts Builder Struct List Query StructFacts Enc
  CopyList ArgSpec CopyListFacts Ctor CtorSpec CtorCall CtorProps CtorSamples Samples.
From Verif Require Import FloatBits FloatSpec FloatFacts.
From Coq Require Import String ZifyBool.
From Coq Require Import Lists.List.
Local Notation length := Datatypes.length.
Local Open Scope string_scope.
Local Open Scope list_scope.
Local Open Scope Z_scope.

(** The float Python sees: struct.unpack_from('<f') gives a C float as a
    double, '<d' gives the double (packing.py:24-28) *)
Definition seen (g : gval) : option Z :=
  match g with GF32 p => Some (to64 p) | GF64 b => Some b | _ => None end.
Definition seen_item (x : item) : option Z :=
  match x with IFloat false p => Some (to64 p) | IFloat true b => Some b | _ => None end.

(** The specification: what comes back through a Float32 field for [b] *)
Definition through_single (b y : Z) : Prop :=
  bits double y /\
  (finite double b -> Z.abs (fvalue double b) < overflow32 ->
     finite double y /\ neg double y = neg double b /\
     exists p, bits single p /\ finite single p /\ fvalue double y = fvalue single p /\
               nearest single (fvalue double b) p) /\
  (infinite double b \/ (finite double b /\ overflow32 <= Z.abs (fvalue double b)) ->
     infinite double y /\ neg double y = neg double b) /\
  (is_nan double b -> is_nan double y).

Lemma float_val_bits x b : float_val x b -> bits double b.
Proof. intros [_ H]. unfold in_fmt in H. cbn in H. unfold bits, double. cbn [fs]. lia. Qed.

Lemma bits_to64 p : bits single p -> bits double (to64 p).
Proof.
  intros B. destruct (Ztrichotomy (body single p) (fi single)) as [L|[E|G]].
  - exact (proj1 (to64_exact p B L)).
  - unfold to64. rewrite E, Z.ltb_irrefl, Z.eqb_refl. apply bits_signed. vm_compute. split; congruence.
  - unfold to64. destruct (Z.ltb_spec (fi single) (body single p)); [|lia]. apply bits_signed. vm_compute. split; congruence.
Qed.

Lemma neg_to64 p : bits single p -> neg double (to64 p) = neg single p.
Proof.
  intros B. destruct (Ztrichotomy (body single p) (fi single)) as [L|[E|G]].
  - destruct (to64_form p B L) as (k & K & -> & _). apply neg_signed. assert (SS := ok_s double double_ok). lia.
  - exact (proj1 (proj2 (proj1 (to64_nonfinite p B) E))).
  - assert (N : is_nan single p) by (unfold is_nan; lia). exact (proj1 (proj2 (proj2 (to64_nonfinite p B) N))).
Qed.

Lemma through b : bits double b -> through_single b (to64 (to32 b)).
Proof.
  intros B. assert (B3 := to32_bits b B). assert (N3 := neg_to64 _ B3). split; [exact (bits_to64 _ B3)|]. split; [|split].
  - intros F O. destruct (to32_nearest b B F O) as (_ & F3 & NG & NR). destruct (to64_exact _ B3 F3) as (_ & FD & V & _).
    split; [exact FD|]. split; [rewrite N3; exact NG|]. exists (to32 b). auto.
  - intros H. assert (E : to32 b = signed single (neg double b) (fi single)).
    { destruct H as [H|[F O]]; [exact (to32_infinite b H)|exact (to32_overflow b B F O)]. }
    assert (R : 0 <= fi single < fs single) by (vm_compute; split; congruence).
    assert (I3 : infinite single (to32 b)) by (unfold infinite; rewrite E; apply body_signed; exact R).
    destruct (proj1 (to64_nonfinite _ B3) I3) as (ID & NG & _). split; [exact ID|]. rewrite NG, E. apply neg_signed. exact R.
  - intros H. assert (I3 : is_nan single (to32 b)).
    { rewrite (to32_nan b H). unfold is_nan. rewrite body_signed by (vm_compute; split; congruence). vm_compute. reflexivity. }
    exact (proj1 (proj2 (to64_nonfinite _ B3) I3)).
Qed.

(** Float fields: Float64 gives the very float back, Float32 the nearest
    Float32 *)
Theorem C73_fields : forall fuel, (2 <= fuel)%nat -> forall sn, layout_ok sn -> forall kw vals,
  call_ok fuel (filter visible (sn_fields sn)) kw vals ->
  (length (members_given (filter visible (sn_fields sn)) kw) <= 1)%nat ->
  call_size sn kw vals <= 2 ^ 32 ->
  exists o, ctor fuel sn kw = Ok o /\
  forall n i dc t off ex d x b, In (FSlot n i dc t off ex d) (sn_fields sn) ->
    assoc kw n = Some x -> float_val x b ->
    (t = TFloat64 -> exists g, get_slot o (sn_utag sn) (FSlot n i dc t off ex d) = Ok g /\ seen g = Some b) /\
    (t = TFloat32 -> exists g y, get_slot o (sn_utag sn) (FSlot n i dc t off ex d) = Ok g /\ seen g = Some y /\ through_single b y).
Proof.
  intros fuel Hf sn L kw vals C M SZ. destruct (built_ints fuel Hf sn L kw vals C M SZ) as (o & E & _ & _ & H & _).
  exists o. split; [exact E|]. intros n i dc t off ex d x b I A X. destruct (H n i dc off ex d x b A X) as (H32 & H64).
  split; intros ->.
  - exists (GF64 b). split; [exact (H64 I)|reflexivity].
  - exists (GF32 (to32 b)), (to64 (to32 b)). split; [exact (H32 I)|]. split; [reflexivity|]. exact (through b (float_val_bits _ _ X)).
Qed.
Print Assumptions C73_fields.

(** List items *)
Theorem C73_lists : forall fuel, (2 <= fuel)%nat -> forall sn, layout_ok sn -> forall kw vals,
  call_ok fuel (filter visible (sn_fields sn)) kw vals ->
  (length (members_given (filter visible (sn_fields sn)) kw) <= 1)%nat ->
  call_size sn kw vals <= 2 ^ 32 ->
  forall n i dc dbl off ex d x items, In (FSlot n i dc (TList (ITFloat dbl)) off ex d) (sn_fields sn) ->
  assoc kw n = Some x -> x <> PNone -> py_iter x = Ok items ->
  exists o l, ctor fuel sn kw = Ok o /\
    get_slot o (sn_utag sn) (FSlot n i dc (TList (ITFloat dbl)) off ex d) = Ok (GList l) /\
    l_count l = blen items /\
    forall k v, nth_error items k = Some v -> exists b r y, float_val v b /\
      l_getitem l (Z.of_nat k) = Ok r /\ seen_item r = Some y /\ if dbl then y = b else through_single b y.
Proof.
  intros fuel Hf sn L kw vals C M SZ n i dc dbl off ex d x items I A NX PI.
  destruct (built_ptrs fuel Hf sn L kw vals C M SZ) as (o & E & H).
  destruct (proj1 (H _ I) x A NX) as (l & G & S). exists o, l. split; [exact E|]. split; [exact G|].
  destruct S as [[X _]|(its & PI' & CN & S)]; [congruence|]. rewrite PI in PI'. apply ok_inj in PI'. subst its.
  split; [exact CN|]. intros k v K. destruct (S k v K) as (b & FV & GI).
  exists b, (IFloat dbl (float_bits dbl b)). destruct dbl.
  - exists b. auto.
  - exists (to64 (to32 b)). split; [exact FV|]. split; [exact GI|]. split; [reflexivity|]. exact (through b (float_val_bits _ _ FV)).
Qed.
Print Assumptions C73_lists.

(** A float which is a Float32 comes back bit by bit (so does -0.0, and what
    was read from a Float32 field before) *)
Theorem C73_exact : forall b y, bits double b -> finite double b ->
  (exists q, bits single q /\ finite single q /\ fvalue single q = fvalue double b) ->
  through_single b y -> y = b.
Proof.
  intros b y B F (q & Bq & Fq & Vq) (By & H & _).
  assert (O : Z.abs (fvalue double b) < overflow32).
  { rewrite <- Vq. unfold fvalue. change (1074 - fu single) with 925. change (fp single) with 24.
    destruct (body_bounds single q Bq) as (Q0 & Q1). assert (MN := mag_nonneg 24 (body single q) ltac:(lia) Q0).
    assert (T := to64_exact q Bq Fq). 
    assert (MX : mag 24 (body single q) <= mag 24 (fi single - 1)) by (apply mag_le; unfold finite in Fq; lia).
    assert (X : mag 24 (fi single - 1) * 2 ^ 925 < overflow32) by (vm_compute; reflexivity).
    assert (P := pow_pos' 925 ltac:(lia)). set (m := mag 24 (body single q)) in *. set (w := mag 24 (fi single - 1)) in *.
    set (p := 2 ^ 925) in *. clearbody m w p. clear - MN MX X P. destruct (neg single q); nia. }
  destruct (H F O) as (Fy & Ny & p & Bp & Fp & Vy & NR).
  destruct (NR q Bq Fq) as (D & _). rewrite Vq, Z.sub_diag in D. assert (V : fvalue double y = fvalue double b) by lia.
  apply (nearest_unique double (fvalue double b) y b double_ok By B Fy F Ny).
  - intros c _ _. rewrite V. split; [lia|]. intros E. left. lia.
  - intros c _ _. split; [lia|]. intros E. left. lia.
  - reflexivity.
Qed.
Print Assumptions C73_exact.

(** Reading: a Float32 of a message, whoever wrote it, is the Python float
    with the same number; writing that one again gives the same 32 bits (a nan
    gives a nan) *)
Theorem C73_read : forall p, bits single p -> exists y, seen (GF32 p) = Some y /\ bits double y /\
  neg double y = neg single p /\
  (finite single p -> finite double y /\ fvalue double y = fvalue single p /\ to32 y = p) /\
  (infinite single p -> infinite double y /\ to32 y = p) /\
  (is_nan single p -> is_nan double y /\ is_nan single (to32 y)).
Proof.
  intros p B. exists (to64 p). split; [reflexivity|]. split; [exact (bits_to64 p B)|]. split; [exact (neg_to64 p B)|].
  split; [|split]; intros H.
  - destruct (to64_exact p B H) as (_ & F & V & R). auto.
  - destruct (proj1 (to64_nonfinite p B) H) as (A1 & _ & A3). auto.
  - destruct (proj2 (to64_nonfinite p B) H) as (A1 & _ & A3). auto.
Qed.
Print Assumptions C73_read.

(** There is one answer: the specification determines what comes back, except
    for the bits of a nan *)
Theorem C73_unique : forall b y y', bits double b -> ~ is_nan double b ->
  through_single b y -> through_single b y' -> y = y'.
Proof.
  intros b y y' B NN (By & H1 & H2 & _) (By' & H1' & H2' & _).
  assert (DB : forall c, bits double c -> c = signed double (neg double c) (body double c)) by (intros c _; symmetry; apply signed_eta).
  destruct (Z_lt_ge_dec (body double b) (fi double)) as [F|G].
  - destruct (Z_lt_ge_dec (Z.abs (fvalue double b)) overflow32) as [O|O].
    + destruct (H1 F O) as (Fy & Ny & p & Bp & Fp & Vy & NR). destruct (H1' F O) as (Fy' & Ny' & p' & Bp' & Fp' & Vy' & NR').
      assert (EV : fvalue single p = fvalue single p').
      { destruct (NR p' Bp' Fp') as (A1 & A2). destruct (NR' p Bp Fp) as (A1' & A2').
        destruct (Z.eq_dec (fvalue single p) (fvalue single p')) as [E|NE]; [exact E|exfalso].
        assert (ED : Z.abs (fvalue double b - fvalue single p) = Z.abs (fvalue double b - fvalue single p')) by lia.
        destruct (A2 ED) as [X|EP]; [lia|]. destruct (A2' (eq_sym ED)) as [X|EP']; [lia|].
        (* give both patterns the sign of b *)
        assert (SG : forall r, bits single r -> finite single r -> nearest single (fvalue double b) r -> neg single r = neg double b \/ fvalue single r = 0).
        { intros r Br Fr Nr. destruct (body_bounds single r Br) as (R0 & _). assert (MN := mag_nonneg 24 (body single r) ltac:(lia) R0).
          destruct (body_bounds double b B) as (B0 & _). assert (MB := mag_nonneg 53 (body double b) ltac:(lia) B0).
          assert (Z0 : bits single 0) by (vm_compute; split; congruence). assert (ZF : finite single 0) by (vm_compute; reflexivity).
          destruct (Nr 0 Z0 ZF) as (A & _). assert (V0 : fvalue single 0 = 0) by (vm_compute; reflexivity). rewrite V0 in A.
          rewrite fvalue_double in A. unfold fvalue in *. change (1074 - fu single) with 925 in *. change (fp single) with 24 in *.
          assert (P := pow_pos' 925 ltac:(lia)). set (m := mag 24 (body single r)) in *. set (w := mag 53 (body double b)) in *.
          set (s := 2 ^ 925) in *. clearbody m w s. clear - A MN MB P.
          destruct (Z.eq_dec m 0) as [->|M0]; [right; destruct (neg single r); reflexivity|left].
          assert (0 < m * s) by nia. rewrite <- Z.mul_assoc in A. set (ms := m * s) in *. clearbody ms.
          destruct (neg single r), (neg double b); try reflexivity; exfalso; lia. }
        destruct (SG p Bp Fp NR) as [Sp|Zp]; destruct (SG p' Bp' Fp' NR') as [Sp'|Zp'].
        + assert (P' : p = p') by (apply (nearest_unique single (fvalue double b) p p' single_ok Bp Bp' Fp Fp'); try assumption; [congruence|vm_compute; congruence]).
          congruence.
        + (* p' is a zero: move its sign *)
          set (z := signed single (neg double b) 0).
          assert (RZ : 0 <= 0 < fs single) by (vm_compute; split; congruence).
          assert (Bz : bits single z) by (apply bits_signed; exact RZ).
          assert (Fz : finite single z) by (unfold finite, z; rewrite body_signed by exact RZ; reflexivity).
          assert (Vz : fvalue single z = 0) by (unfold z; destruct (neg double b); vm_compute; reflexivity).
          assert (Ez : Z.even z = true) by (unfold z; destruct (neg double b); vm_compute; reflexivity).
          assert (Nz : nearest single (fvalue double b) z).
          { intros c Bc Fc. rewrite Vz. rewrite Zp' in *. destruct (NR' c Bc Fc) as (U1 & _). rewrite Zp' in U1. split; [exact U1|]. intros _. right. exact Ez. }
          assert (P' : p = z).
          { apply (nearest_unique single (fvalue double b) p z single_ok Bp Bz Fp Fz); try assumption; [|vm_compute; congruence].
            rewrite Sp. unfold z. rewrite neg_signed by exact RZ. reflexivity. }
          apply NE. rewrite P', Vz, Zp'. reflexivity.
        + set (z := signed single (neg double b) 0).
          assert (RZ : 0 <= 0 < fs single) by (vm_compute; split; congruence).
          assert (Bz : bits single z) by (apply bits_signed; exact RZ).
          assert (Fz : finite single z) by (unfold finite, z; rewrite body_signed by exact RZ; reflexivity).
          assert (Vz : fvalue single z = 0) by (unfold z; destruct (neg double b); vm_compute; reflexivity).
          assert (Ez : Z.even z = true) by (unfold z; destruct (neg double b); vm_compute; reflexivity).
          assert (Nz : nearest single (fvalue double b) z).
          { intros c Bc Fc. rewrite Vz. destruct (NR c Bc Fc) as (U1 & _). rewrite Zp in U1. split; [exact U1|]. intros _. right. exact Ez. }
          assert (P' : p' = z).
          { apply (nearest_unique single (fvalue double b) p' z single_ok Bp' Bz Fp' Fz); try assumption; [|vm_compute; congruence].
            rewrite Sp'. unfold z. rewrite neg_signed by exact RZ. reflexivity. }
          apply NE. rewrite P', Vz, Zp. reflexivity.
        + lia. }
      assert (V : fvalue double y = fvalue double y') by congruence.
      apply (nearest_unique double (fvalue double y) y y' double_ok By By' Fy Fy'); [congruence| | |reflexivity].
      * intros c _ _. split; [lia|]. intros E. left. lia.
      * intros c _ _. split; [lia|]. intros E. left. lia.
    + assert (Q : infinite double b \/ finite double b /\ overflow32 <= Z.abs (fvalue double b)) by (right; split; [exact F|lia]).
      destruct (H2 Q) as (I1 & N1). destruct (H2' Q) as (I2 & N2). unfold infinite in *. rewrite (DB y By), (DB y' By'), I1, I2, N1, N2. reflexivity.
  - assert (Q : infinite double b \/ finite double b /\ overflow32 <= Z.abs (fvalue double b)) by (left; unfold infinite, is_nan in *; lia).
    destruct (H2 Q) as (I1 & N1). destruct (H2' Q) as (I2 & N2). unfold infinite in *. rewrite (DB y By), (DB y' By'), I1, I2, N1, N2. reflexivity.
Qed.
Print Assumptions C73_unique.

(** Integers given as floats: the nearest float, exact up to 2^53; too large
    ones are refused *)
Theorem C73_integers : forall z,
  (forall b, float_val (PInt z) b ->
     bits double b /\ finite double b /\ neg double b = (z <? 0) /\ nearest double (z * 2 ^ 1074) b) /\
  (Z.abs z <= 2 ^ 53 -> exists b, float_val (PInt z) b /\ fvalue double b = z * 2 ^ 1074) /\
  ((exists b, float_val (PInt z) b) <-> Z.abs z * 2 ^ 1074 < overflow64) /\
  (forall dbl buf i, overflow64 <= Z.abs z * 2 ^ 1074 -> write_scalar (if dbl : bool then WF64 else WF32) buf i (PInt z) = Err StructError).
Proof.
  intros z. assert (S := int_to64_spec z).
  assert (AZ : Z.abs (z * 2 ^ 1074) = Z.abs z * 2 ^ 1074).
  { rewrite Z.abs_mul, (Z.abs_eq (2 ^ 1074)); [reflexivity|]. apply Z.pow_nonneg. lia. }
  assert (FB : forall b, bits double b -> in_fmt FQ b) by (intros b; unfold bits, in_fmt, double; cbn; lia).
  rewrite AZ in S. split; [|split; [|split]].
  - intros b [E _]. cbn [as_float] in E. rewrite E in S. tauto.
  - intros H. destruct (int_to64_exact z H) as (b & E & B & _ & V). exists b. split; [split; [exact E|apply FB; exact B]|exact V].
  - split.
    + intros (b & E & _). cbn [as_float] in E. rewrite E in S. tauto.
    + intros O. destruct (int_to64 z) as [b|] eqn:E; [|lia]. exists b. split; [exact E|]. apply FB. tauto.
  - intros dbl buf i O. destruct (int_to64 z) as [b|] eqn:E; [lia|].
    destruct dbl; cbn [write_scalar]; unfold write_float; cbn [as_float]; rewrite E; reflexivity.
Qed.
Print Assumptions C73_integers.

(** True is 1.0 and False is 0.0 *)
Theorem C73_bools : forall b, exists y, float_val (PBool b) y /\ bits double y /\ finite double y /\ neg double y = false /\
  fvalue double y = (if b then 1 else 0) * 2 ^ 1074.
Proof.
  intros b. exists (if b then 1023 * 2 ^ 52 else 0).
  destruct b; (split; [split; [vm_compute; reflexivity|apply in_fmtb_iff; vm_compute; reflexivity]|]);
    (split; [split; vm_compute; congruence|]); (split; [vm_compute; reflexivity|]); split; vm_compute; reflexivity.
Qed.
Print Assumptions C73_bools.

(** Anything else is refused *)
Theorem C73_refused : forall dbl buf i x, (forall b, x <> PFloat b) -> (forall z, x <> PInt z) -> (forall b, x <> PBool b) ->
  write_scalar (if dbl : bool then WF64 else WF32) buf i x = Err StructError.
Proof.
  intros dbl buf i x N1 N2 N3. assert (E : as_float x = None) by (destruct x; try reflexivity; exfalso; first [exact (N1 _ eq_refl)|exact (N2 _ eq_refl)|exact (N3 _ eq_refl)]).
  destruct dbl; cbn [write_scalar]; unfold write_float; rewrite E; reflexivity.
Qed.
Print Assumptions C73_refused.

(** struct P { x @0 :Float32; y @1 :Float64; l @2 :List(Float32); }
    P(x=0.1, y=2**53+1, l=[1e300, -0.0, True]) *)
Definition gx := FSlot "x" 0 None TFloat32 0 false 0.
Definition gy := FSlot "y" 1 None TFloat64 1 false 0.
Definition gl := FSlot "l" 2 None (TList (ITFloat false)) 0 false 0.
Definition fnode : struct_node := mksn 2 1 None [gx; gy; gl].
Definition tenth : Z := 4591870180066957722.       (* 0x3fb999999999999a: 0.1 *)
Definition big : Z := 9094988921128908188.         (* 0x7e37e43c8800759c: 1e300 *)
Definition mzero : Z := 9223372036854775808.       (* -0.0 *)
Definition kwf : list (string * pyval) :=
  [("x", PFloat tenth); ("y", PInt (2 ^ 53 + 1)); ("l", PSeq [PFloat big; PFloat mzero; PBool true])].
Definition valsf (n : string) : list value :=
  if String.eqb n "l" then [VList 4 3 (concat (map (fun b => le_enc 4 (to32 b)) [big; mzero; 4607182418800017408]))] else [].

Lemma fnode_ok : layout_ok fnode.
Proof.
  constructor.
  - cbn. lia.
  - cbn. lia.
  - cbn [sn_ds sn_utag sn_fields fnode]. split.
    { unfold gx, gy, gl; pairs_tac. }
    split; [discriminate|]. split; [reflexivity|]. split; [intros f l I []|]. cbn. split; constructor.
  - cbn [sn_ds sn_ps sn_fields fnode all_of].
    repeat match goal with |- _ /\ _ => split | |- True => exact I end;
      cbn [field_ok gx gy gl]; unfold slot_ok, in_fmt; cbn [fsize fmin fmax]; repeat split; try lia; try discriminate; auto.
  - assert (D : forall l : list string, nodup String.string_dec l = l -> NoDup l) by (intros l <-; apply NoDup_nodup).
    apply D. vm_compute. reflexivity.
  - intros f If _. cbn in If. decompose [or] If; try contradiction; subst f; split; discriminate.
Qed.

Lemma callf : call_ok 4 (filter visible (sn_fields fnode)) kwf valsf.
Proof.
  constructor.
  - intros n x I. apply (in_map fst) in I. cbn [map fst kwf] in I.
    assert (S : In n (map f_name (filter visible (sn_fields fnode)))) by (revert I; cbn [fst]; cbn; tauto).
    apply in_map_iff in S. destruct S as (f & <- & If). eauto.
  - intros f x I. change (filter visible (sn_fields fnode)) with (sn_fields fnode) in I. cbn [fnode sn_fields In] in I.
    decompose [or] I; try contradiction; subst f; intros E.
    + change (assoc kwf (f_name gx)) with (Some (PFloat tenth)) in E. injection E as <-. split; [intros _; discriminate|].
      split; [|reflexivity]. exists tenth. split; [reflexivity|unfold in_fmt; cbn; unfold tenth; lia].
    + change (assoc kwf (f_name gy)) with (Some (PInt (2 ^ 53 + 1))) in E. injection E as <-. split; [intros _; discriminate|].
      split; [|reflexivity]. exists 4845873199050653696. split; [vm_compute; reflexivity|unfold in_fmt; cbn; lia].
    + change (assoc kwf (f_name gl)) with (Some (PSeq [PFloat big; PFloat mzero; PBool true])) in E. injection E as <-. split; [intros _; discriminate|].
      exists (VList 4 3 (concat (map (fun b => le_enc 4 (to32 b)) [big; mzero; 4607182418800017408]))).
      split; [reflexivity|]. split; [|split].
      * right. exists [PFloat big; PFloat mzero; PBool true]. split; [reflexivity|]. split; [reflexivity|].
        exists [big; mzero; 4607182418800017408]. split; [|reflexivity].
        assert (U : forall v b, as_float v = Some b -> in_fmtb FQ b = true -> float_val v b).
        { intros v b X Y. split; [exact X|]. apply in_fmtb_iff. exact Y. }
        apply Forall2_cons; [apply U; vm_compute; reflexivity|]. apply Forall2_cons; [apply U; vm_compute; reflexivity|].
        apply Forall2_cons; [apply U; vm_compute; reflexivity|]. apply Forall2_nil.
      * vm_compute. repeat split; discriminate.
      * vm_compute. lia.
  - intros f I. change (filter visible (sn_fields fnode)) with (sn_fields fnode) in I. cbn [fnode sn_fields In] in I.
    decompose [or] I; try contradiction; subst f; cbn; intros E D; discriminate.
Qed.
Example C73_ex : layout_ok fnode /\ call_ok 4 (filter visible (sn_fields fnode)) kwf valsf /\
  (length (members_given (filter visible (sn_fields fnode)) kwf) <= 1)%nat /\ call_size fnode kwf valsf <= 2 ^ 32 /\
  float_val (PFloat tenth) tenth.
Proof.
  split; [exact fnode_ok|]. split; [exact callf|]. split; [vm_compute; lia|]. split; [vm_compute; discriminate|].
  split; [reflexivity|unfold in_fmt; cbn; unfold tenth; lia].
Qed.
(** 0.1 comes back as 0.10000000149011612 (0x3fb99999a0000000), 2**53+1 as
    2.0**53, 1e300 as inf, -0.0 as -0.0, True as 1.0 *)
Example C73_ex_run : match ctor 4 fnode kwf with
  | Ok o =>
      match get_slot o None gx, get_slot o None gy, get_slot o None gl with
      | Ok x, Ok y, Ok (GList l) =>
          seen x = Some 4591870180174331904 /\ seen y = Some 4845873199050653696 /\
          fvalue double 4845873199050653696 = 2 ^ 53 * 2 ^ 1074 /\
          option_map seen_item (match l_getitem l 0 with Ok r => Some r | Err _ => None end) = Some (Some (2047 * 2 ^ 52)) /\
          option_map seen_item (match l_getitem l 1 with Ok r => Some r | Err _ => None end) = Some (Some mzero) /\
          option_map seen_item (match l_getitem l 2 with Ok r => Some r | Err _ => None end) = Some (Some 4607182418800017408)
      | _, _, _ => False end
  | Err _ => False end.
Proof. vm_compute. repeat split. Qed.
(** The cases of the specification all arise *)
Example C73_cases : (finite double tenth /\ Z.abs (fvalue double tenth) < overflow32) /\
  (finite double big /\ overflow32 <= Z.abs (fvalue double big)) /\
  infinite double (2047 * 2 ^ 52) /\ is_nan double (2047 * 2 ^ 52 + 1) /\
  (exists q, bits single q /\ finite single q /\ fvalue single q = fvalue double mzero).
Proof.
  split; [split; vm_compute; reflexivity|]. split; [split; [vm_compute; reflexivity|vm_compute; discriminate]|].
  split; [vm_compute; reflexivity|]. split; [vm_compute; reflexivity|].
  exists (2 ^ 31). split; [split; vm_compute; congruence|]. split; vm_compute; reflexivity.
Qed.
Example C73_int_ex : float_val (PInt (-3)) 13837309855095848960 /\ overflow64 <= Z.abs (2 ^ 1024) * 2 ^ 1074.
Proof. split; [split; [vm_compute; reflexivity|unfold in_fmt; cbn; lia]|vm_compute; discriminate]. Qed.

(** What a reader may not expect: an int given to a Float32 field is first
    made a float, so it is rounded twice, and the result is not always the
    Float32 nearest to the int: 2**60 + 2**36 + 1 is stored as 2**60 although
    2**60 + 2**37 is nearer. *)
Theorem C73_int_to_float32_refuted : exists z b p q, float_val (PInt z) b /\ p = to32 b /\
  bits single q /\ finite single q /\ Z.abs (z * 2 ^ 1074 - fvalue single q) < Z.abs (z * 2 ^ 1074 - fvalue single p).
Proof.
  exists (2 ^ 60 + 2 ^ 36 + 1), 4877398396710682624, 1568669696, 1568669697.
  split; [split; [vm_compute; reflexivity|unfold in_fmt; cbn; lia]|]. split; [vm_compute; reflexivity|].
  split; [split; vm_compute; congruence|]. split; vm_compute; reflexivity.
Qed.
Print Assumptions C73_int_to_float32_refuted.
