(** What the theorems about the constructors say field by field; has_foo()
    and get_foo() *)
From Verif Require FloatBits.
From Verif Require Import Base Spec BaseFacts Ptr PtrFacts Segment SegmentFacts Builder Copy Enc EncFacts
  EncDen CopyFacts Struct List Query StructFacts ObjFacts CopyList ArgSpec CopyListFacts Ctor CtorSpec CtorStore
  CtorSlots CtorFacts CtorErr CtorFinal CtorCall.
From Coq Require Import String ZifyBool ZifyNat.
From Coq Require Import Lists.List.
Local Notation length := Datatypes.length.
Open Scope string_scope.
Open Scope Z_scope.
Ltac Zify.zify_post_hook ::= Z.div_mod_to_equations.

Lemma int_val_fun f x z z' : int_val f x z -> int_val f x z' -> z = z'.
Proof.
  intros [[->|(b & -> & ->)] _] [[E|(b' & E & ->)] _]; try discriminate E; injection E as <-; reflexivity.
Qed.
Lemma bool_val_fun x b b' : bool_val x b -> bool_val x b' -> b = b'.
Proof.
  intros [->| ->] [E|E]; try discriminate E; injection E as E; destruct b, b'; try reflexivity; try discriminate E.
Qed.

(** ** One field of a constructed object *)

Section Built.
Variable fuel : nat.
Hypothesis Hf : (2 <= fuel)%nat.
Variable sn : struct_node.
Hypothesis L : layout_ok sn.
Notation fs := (sn_fields sn).
Notation top := (filter visible (sn_fields sn)).
Variable kw : list (string * pyval).
Variable vals : string -> list value.
Hypothesis C : call_ok fuel top kw vals.
Hypothesis M : (length (members_given top kw) <= 1)%nat.
Hypothesis SZ : call_size sn kw vals <= 2 ^ 32.

(** the object, and what every getter returns *)
Lemma built : exists o, ctor fuel sn kw = Ok o /\
  (forall f x, In f fs -> visible f = true -> assoc kw (f_name f) = Some x -> field_reads o (sn_utag sn) f x) /\
  (forall f, In f fs -> visible f = true -> assoc kw (f_name f) = None -> f_disc f = None ->
     field_reads o (sn_utag sn) f (default None f)).
Proof.
  destruct (ctor_ok fuel Hf sn L kw vals C M SZ) as (o & d & vs & E & _ & _ & _ & RD & _).
  exists o. split; [exact E|]. pose proof (reads_of_map _ _ _ RD) as R. split.
  - intros f x If V A. destruct (R f If V) as [[MF U]|X].
    + unfold arg_for in U. rewrite A in U. subst x. exfalso.
      apply (proj1 (call_given _ _ _ _ C f PUndef (proj2 (filter_In _ _ _) (conj If V)) A) MF). reflexivity.
    + unfold arg_for in X. rewrite A in X. exact X.
  - intros f If V A D. destruct (R f If V) as [[MF _]|X].
    + unfold is_member in MF. rewrite D in MF. discriminate MF.
    + unfold arg_for in X. rewrite A in X. exact X.
Qed.

Lemma built_ints : exists o, ctor fuel sn kw = Ok o /\
  (forall n i dc fmt off ex d, In (FSlot n i dc (TPrim fmt) off ex d) fs ->
     (forall x z, assoc kw n = Some x -> int_val fmt x z ->
        get_slot o (sn_utag sn) (FSlot n i dc (TPrim fmt) off ex d) = Ok (GInt z)) /\
     (assoc kw n = None -> dc = None ->
        get_slot o (sn_utag sn) (FSlot n i dc (TPrim fmt) off ex d) = Ok (GInt d))) /\
  (forall n i dc off ex d, In (FSlot n i dc TEnum off ex d) fs ->
     (forall x z, assoc kw n = Some x -> int_val Fh x z ->
        get_slot o (sn_utag sn) (FSlot n i dc TEnum off ex d) = Ok (GInt z)) /\
     (assoc kw n = None -> dc = None ->
        get_slot o (sn_utag sn) (FSlot n i dc TEnum off ex d) = Ok (GInt d))) /\
  (forall n i dc off ex d x b, assoc kw n = Some x -> float_val x b ->
     (In (FSlot n i dc TFloat32 off ex d) fs ->
        get_slot o (sn_utag sn) (FSlot n i dc TFloat32 off ex d) = Ok (GF32 (FloatBits.to32 b))) /\
     (In (FSlot n i dc TFloat64 off ex d) fs ->
        get_slot o (sn_utag sn) (FSlot n i dc TFloat64 off ex d) = Ok (GF64 b))) /\
  (forall n i off ex d,
     (In (FSlot n i None TFloat32 off ex d) fs -> assoc kw n = None ->
        get_slot o (sn_utag sn) (FSlot n i None TFloat32 off ex d) = Ok (GF32 0)) /\
     (In (FSlot n i None TFloat64 off ex d) fs -> assoc kw n = None ->
        get_slot o (sn_utag sn) (FSlot n i None TFloat64 off ex d) = Ok (GF64 0))).
Proof.
  destruct built as (o & E & R1 & R2). exists o. split; [exact E|].
  assert (FO : forall f, In f fs -> field_ok (sn_ds sn) (sn_ps sn) f).
  { pose proof (lo_fields _ L) as AF. apply all_of_forall in AF. rewrite Forall_forall in AF. exact AF. }
  split; [|split; [|split]].
  - intros n i dc fmt off ex d I. assert (V : visible (FSlot n i dc (TPrim fmt) off ex d) = true) by (destruct dc; reflexivity). split.
    + intros x z A Z0. destruct (R1 _ _ I V A) as (g & G & z' & Z1 & ->). rewrite (int_val_fun _ _ _ _ Z0 Z1). exact G.
    + intros A ->. destruct (R2 _ I V A eq_refl) as (g & G & z' & [[Z1|(b & Z1 & _)] _] & ->); cbn in Z1; [|discriminate Z1].
      injection Z1 as <-. exact G.
  - intros n i dc off ex d I. assert (V : visible (FSlot n i dc TEnum off ex d) = true) by (destruct dc; reflexivity). split.
    + intros x z A Z0. destruct (R1 _ _ I V A) as (g & G & z' & Z1 & ->). rewrite (int_val_fun _ _ _ _ Z0 Z1). exact G.
    + intros A ->. destruct (R2 _ I V A eq_refl) as (g & G & z' & [[Z1|(b & Z1 & _)] _] & ->); cbn in Z1; [|discriminate Z1].
      injection Z1 as <-. exact G.
  - intros n i dc off ex d x b A [X0 _]. split; intros I.
    + assert (V : visible (FSlot n i dc TFloat32 off ex d) = true) by (destruct dc; reflexivity).
      destruct (R1 _ _ I V A) as (g & G & b' & [X1 _] & ->). rewrite X0 in X1. injection X1 as <-. exact G.
    + assert (V : visible (FSlot n i dc TFloat64 off ex d) = true) by (destruct dc; reflexivity).
      destruct (R1 _ _ I V A) as (g & G & b' & [X1 _] & ->). rewrite X0 in X1. injection X1 as <-. exact G.
  - intros n i off ex d. split; intros I A; destruct (FO _ I) as (_ & H1 & _ & H2); specialize (H1 H2); subst d.
    + destruct (R2 _ I eq_refl A eq_refl) as (g & G & b' & [X _] & ->). cbn in X. injection X as <-. exact G.
    + destruct (R2 _ I eq_refl A eq_refl) as (g & G & b' & [X _] & ->). cbn in X. injection X as <-. exact G.
Qed.

Lemma built_bools : exists o, ctor fuel sn kw = Ok o /\
  (forall n i dc off ex d, In (FSlot n i dc TBool off ex d) fs ->
     (forall x b, assoc kw n = Some x -> bool_val x b ->
        get_slot o (sn_utag sn) (FSlot n i dc TBool off ex d) = Ok (GBool b)) /\
     (assoc kw n = None -> dc = None ->
        get_slot o (sn_utag sn) (FSlot n i dc TBool off ex d) = Ok (GBool (d =? 1)))).
Proof.
  destruct built as (o & E & R1 & R2). exists o. split; [exact E|].
  assert (FO : forall f, In f fs -> field_ok (sn_ds sn) (sn_ps sn) f).
  { pose proof (lo_fields _ L) as AF. apply all_of_forall in AF. rewrite Forall_forall in AF. exact AF. }
  intros n i dc off ex d I. assert (V : visible (FSlot n i dc TBool off ex d) = true) by (destruct dc; reflexivity). split.
  - intros x z A Z0. destruct (R1 _ _ I V A) as (g & G & z' & Z1 & ->). rewrite (bool_val_fun _ _ _ Z0 Z1). exact G.
  - intros A ->. destruct (R2 _ I V A eq_refl) as (g & G & z' & [Z1|Z1] & ->); cbn in Z1; [|discriminate Z1].
    injection Z1 as <-. rewrite G. destruct (FO _ I) as (_ & _ & _ & [->| ->]); reflexivity.
Qed.

Lemma built_ptrs : exists o, ctor fuel sn kw = Ok o /\
  (forall f, In f fs ->
     match f with
     | FSlot n i dc TText off ex d | FSlot n i dc TData off ex d =>
         (forall b, assoc kw n = Some (PBytes b) -> get_slot o (sn_utag sn) f = Ok (GBytes b)) /\
         (assoc kw n = Some PNone \/ (assoc kw n = None /\ dc = None) -> get_slot o (sn_utag sn) f = Ok GNone)
     | FSlot n i dc TStruct off ex d =>
         (forall x, assoc kw n = Some (PObj x) ->
            exists o', get_slot o (sn_utag sn) f = Ok (GObj o') /\ same_struct x o') /\
         (assoc kw n = Some PNone \/ (assoc kw n = None /\ dc = None) -> get_slot o (sn_utag sn) f = Ok GNone)
     | FSlot n i dc (TList it) off ex d =>
         (forall x, assoc kw n = Some x -> x <> PNone ->
            exists l, get_slot o (sn_utag sn) f = Ok (GList l) /\ same_list it x l) /\
         (assoc kw n = Some PNone \/ (assoc kw n = None /\ dc = None) -> get_slot o (sn_utag sn) f = Ok GNone)
     | _ => True
     end).
Proof.
  destruct built as (o & E & R1 & R2). exists o. split; [exact E|].
  intros f I. destruct f as [n i dc t off ex d|]; [|exact Logic.I].
  destruct t; try exact Logic.I;
    match goal with |- context [FSlot n i dc ?t off ex d] =>
      assert (V : visible (FSlot n i dc t off ex d) = true) by (destruct dc; reflexivity) end;
    (assert (NN : forall x, assoc kw n = Some x \/ (assoc kw n = None /\ dc = None /\ x = PNone) ->
        field_reads o (sn_utag sn) (FSlot n i dc _ off ex d) x) by
      (intros x [A|(A & -> & ->)]; [exact (R1 _ _ I V A)|exact (R2 _ I V A eq_refl)])).
  - split.
    + intros b A. destruct (NN _ (or_introl A)) as (g & G & [[X _]|(b' & X & ->)]); [discriminate X|]. injection X as <-. exact G.
    + intros A. destruct (NN PNone) as (g & G & [[_ ->]|(b' & X & _)]); [tauto|exact G|discriminate X].
  - split.
    + intros b A. destruct (NN _ (or_introl A)) as (g & G & [[X _]|(b' & X & ->)]); [discriminate X|]. injection X as <-. exact G.
    + intros A. destruct (NN PNone) as (g & G & [[_ ->]|(b' & X & _)]); [tauto|exact G|discriminate X].
  - split.
    + intros x A. destruct (NN _ (or_introl A)) as (g & G & [[X _]|(x' & o' & X & -> & S)]); [discriminate X|].
      injection X as <-. exists o'. auto.
    + intros A. destruct (NN PNone) as (g & G & [[_ ->]|(x' & o' & X & _)]); [tauto|exact G|discriminate X].
  - split.
    + intros x A NX. destruct (NN _ (or_introl A)) as (g & G & [[X _]|(_ & l & -> & S)]); [congruence|]. exists l. auto.
    + intros A. destruct (NN PNone) as (g & G & [[_ ->]|(X & _)]); [tauto|exact G|congruence].
Qed.

(** ** Unions *)
Lemma other_member o u d f d' : which o u = Ok d -> f_disc f = Some d' -> d' <> d -> ensure_union o u f = Err ValueError.
Proof.
  intros W D N. unfold ensure_union. rewrite D. unfold which in W. destruct u as [u|]; [|discriminate W].
  unfold o_ensure_union. rewrite W. cbn [bind]. destruct (Z.eqb_spec d d'); [congruence|]. reflexivity.
Qed.

Lemma built_union : sn_utag sn <> None -> exists o, ctor fuel sn kw = Ok o /\
  (members_given top kw = [] -> which o (sn_utag sn) = Ok 0) /\
  (forall f d x, In f fs -> f_disc f = Some d -> assoc kw (f_name f) = Some x ->
     which o (sn_utag sn) = Ok d /\ field_reads o (sn_utag sn) f x /\
     (forall g, In g fs -> is_member g = true -> f_name g <> f_name f ->
        get_slot o (sn_utag sn) g = Err (match g with FSlot _ _ _ _ _ _ _ => ValueError | _ => TypeError end) /\
        get_group o (sn_utag sn) g = Err ValueError)).
Proof.
  intros NU. destruct (call_args fuel Hf sn L kw vals _ (fun f x v H => H) C) as (vs & _ & GL & _).
  destruct (ctor_ok fuel Hf sn L kw vals C M SZ) as (o & d & vs' & E & _ & _ & _ & RD & UI).
  exists o. split; [exact E|]. specialize (UI NU). pose proof (reads_of_map _ _ _ RD) as R. split.
  - intros MG. rewrite MG in GL. destruct (given fs (map (arg_for kw) top)); [exact UI|discriminate GL].
  - intros f dd x If D A. assert (MF : is_member f = true) by (unfold is_member; rewrite D; reflexivity).
    assert (V : visible f = true) by (destruct f; cbn [f_disc] in D; subst; reflexivity).
    assert (IT : In f top) by (apply filter_In; auto).
    assert (NX : x <> PUndef) by (apply (proj1 (call_given _ _ _ _ C f x IT A) MF)).
    assert (W : which o (sn_utag sn) = Ok dd).
    { rewrite UI. f_equal. rewrite given_map. rewrite given_map in GL. rewrite <- GL in M.
      assert (IG : In dd (flat_map (fun f => match f_disc f, arg_for kw f with Some _, PUndef | None, _ => [] | Some d, _ => [d] end) top)).
      { apply in_flat_map. exists f. split; [exact IT|]. rewrite D. unfold arg_for. rewrite A. destruct x; try (left; reflexivity). congruence. }
      destruct (flat_map _ top) as [|a [|b r]]; [destruct IG|destruct IG as [<-|[]]; reflexivity|cbn [length] in M; lia]. }
    split; [exact W|]. split.
    { destruct (R f If V) as [[_ U]|X]; unfold arg_for in *; rewrite A in *; [congruence|exact X]. }
    intros g Ig MG NE. assert (DG : exists d', f_disc g = Some d') by (unfold is_member in MG; destruct (f_disc g); [eauto|discriminate MG]).
    destruct DG as (d' & DG).
    assert (ND : d' <> dd).
    { intros ->. destruct (lo_scope _ L) as (_ & _ & _ & _ & _ & N).
      assert (X : f = g); [|subst; congruence].
      clear - N If Ig D DG. revert If Ig N. generalize fs. intros l. induction l as [|h r IH]; intros I J N; [destruct I|].
      unfold discs in N. cbn [flat_map] in N. destruct (NoDup_app_inv _ _ N) as (_ & N2 & N3).
      destruct I as [<-|I], J as [<-|J]; [reflexivity| | |apply IH; assumption].
      - exfalso. rewrite D in N3. apply (N3 dd); [left; reflexivity|]. exact (in_discs _ _ _ J DG).
      - exfalso. rewrite DG in N3. apply (N3 dd); [left; reflexivity|]. exact (in_discs _ _ _ I D). }
    pose proof (other_member o (sn_utag sn) dd g d' W DG ND) as EU.
    split; [destruct g; cbn [get_slot]; [rewrite EU|]; reflexivity|]. unfold get_group. rewrite EU. reflexivity.
Qed.

Lemma built_nullable : exists o, ctor fuel sn kw = Ok o /\
  (forall n i dc u gs, In (FGroup n i dc true u gs) fs ->
     (assoc kw n = Some PNone -> get_nullable o (sn_utag sn) (FGroup n i dc true u gs) = Ok GNone) /\
     (forall x, assoc kw n = Some x -> x <> PNone ->
        exists g, get_nullable o (sn_utag sn) (FGroup n i dc true u gs) = Ok g /\ g <> GNone /\
          match value_type gs with
          | TPrim f => exists z, int_val f x z /\ g = GInt z
          | TEnum => exists z, int_val Fh x z /\ g = GInt z
          | TBool => exists b, bool_val x b /\ g = GBool b
          | TFloat32 => exists b, float_val x b /\ g = GF32 (FloatBits.to32 b)
          | TFloat64 => exists b, float_val x b /\ g = GF64 b
          | _ => False
          end) /\
     (assoc kw n = None -> dc = None -> forall n1 i1 c1 t1 off1 ex1 d1 r, gs = FSlot n1 i1 c1 t1 off1 ex1 d1 :: r ->
        (d1 <> 0 -> get_nullable o (sn_utag sn) (FGroup n i dc true u gs) = Ok GNone) /\
        (d1 = 0 -> exists g, get_nullable o (sn_utag sn) (FGroup n i dc true u gs) = Ok g /\ g <> GNone))).
Proof.
  destruct built as (o & E & R1 & R2). exists o. split; [exact E|].
  assert (FO : forall f, In f fs -> field_ok (sn_ds sn) (sn_ps sn) f).
  { pose proof (lo_fields _ L) as AF. apply all_of_forall in AF. rewrite Forall_forall in AF. exact AF. }
  intros n i dc u gs I. destruct (FO _ I) as (_ & _ & _ & (o1 & t1 & off1 & e1 & d1 & o2 & t2 & off2 & e2 & d2 & -> & Fl & Sc)).
  assert (V : visible (FGroup n i dc true u [FSlot "is_null" o1 None t1 off1 e1 d1; FSlot "value" o2 None t2 off2 e2 d2]) = true) by reflexivity.
  split; [|split].
  - intros A. destruct (R1 _ _ I V A) as (g & G & [[_ ->]|[X _]]); [exact G|congruence].
  - intros x A NX. destruct (R1 _ _ I V A) as (g & G & [[X _]|[_ X]]); [congruence|]. exists g. split; [exact G|].
    cbn [value_type] in *. destruct t2; try destruct Sc; cbn [slot_same] in X.
    + split; [destruct X as (z & _ & ->); discriminate|exact X].
    + split; [destruct X as (z & _ & ->); discriminate|exact X].
    + split; [destruct X as (z & _ & ->); discriminate|exact X].
    + split; [destruct X as (z & _ & ->); discriminate|exact X].
    + split; [destruct X as (z & _ & ->); discriminate|exact X].
  - intros A -> n1 i1 c1 t1' off1' ex1 d1' r EQ. injection EQ as <- <- <- <- <- <- <- <-.
    destruct (R2 _ I V A eq_refl) as (g & G & X).
    rewrite default_group in X by reflexivity.
    assert (V12 : filter visible [FSlot "is_null" o1 None t1 off1 e1 d1; FSlot "value" o2 None t2 off2 e2 d2] =
                    [FSlot "is_null" o1 None t1 off1 e1 d1; FSlot "value" o2 None t2 off2 e2 d2]).
    { destruct t1; try destruct Fl; destruct t2; try destruct Sc; reflexivity. }
    rewrite V12 in X. unfold null_default in X. cbn [map default is_member f_disc andb value_type] in X.
    split; intros HD.
    + destruct (Z.eqb_spec d1 0); [congruence|]. cbn [negb] in X. destruct X as [[_ ->]|[X _]]; [exact G|congruence].
    + subst d1. cbn [Z.eqb negb] in X. exists g. split; [exact G|].
      destruct X as [[X _]|[_ X]]; [destruct t2; try destruct Sc; discriminate X|].
      destruct t2; try destruct Sc; cbn [slot_same] in X; destruct X as (? & _ & ->); discriminate.
Qed.
End Built.

(** ** has_foo() and get_foo() *)

Lemma has_spec o d vs k : obj_den o d vs -> 0 <= k ->
  has_slot o k = Ok (match v_ptr vs k with VNull => false | _ => true end).
Proof.
  intros O Hk. unfold has_slot. rewrite Z.mul_comm. destruct (o_read_fast_ptr_spec o d vs k O Hk) as (p & R & D & _).
  rewrite R. cbn [bind]. f_equal. destruct (v_ptr vs k) eqn:E.
  - apply den_null_inv in D. subst p. reflexivity.
  - destruct (Z.eqb_spec p 0) as [->|]; [|reflexivity]. inversion D; subst; try congruence; try (unfold p_kind in *; cbn in *; discriminate).
  - destruct (Z.eqb_spec p 0) as [->|]; [|reflexivity]. inversion D; subst; try congruence; try (unfold p_kind in *; cbn in *; discriminate).
  - destruct (Z.eqb_spec p 0) as [->|]; [|reflexivity]. inversion D; subst; try congruence; try (unfold p_kind in *; cbn in *; discriminate).
  - destruct (Z.eqb_spec p 0) as [->|]; [|reflexivity]. inversion D; subst; try congruence; try (unfold p_kind in *; cbn in *; discriminate).
Qed.

(** has_foo() is False exactly when the getter gives None *)
Lemma has_getter o d vs u n i dc t off ex dd g : obj_den o d vs -> 0 <= off -> ty_pointer t = true ->
  get_slot o u (FSlot n i dc t off ex dd) = Ok g ->
  exists b, has_slot o off = Ok b /\ (b = false <-> g = GNone).
Proof.
  intros O Ho TP G. rewrite (has_spec o d vs off O Ho). eexists. split; [reflexivity|].
  cbn [get_slot] in G. destruct (ensure_union o u _); [|discriminate G]. cbn [bind] in G.
  pose proof (o_resolve_spec o d vs off O Ho) as (pos & p & R & K & D). rewrite (Z.mul_comm 8 off) in R.
  assert (PZ : p = 0 <-> v_ptr vs off = VNull).
  { split; intros E.
    - subst p. inversion D; subst; try congruence; try (unfold p_kind in *; cbn in *; discriminate).
    - rewrite E in D. apply den_null_inv in D. exact D. }
  assert (H : (p = 0 <-> g = GNone)).
  { destruct t; try discriminate TP; cbn [read_slot] in G.
    - unfold o_read_data in G. rewrite R in G. cbn [bind] in G. unfold read_str in G.
      destruct (Z.eqb_spec p 0); [cbn [bind] in G; injection G as <-; tauto|].
      destruct (py_assert _); [|discriminate G]. cbn [bind] in G. destruct (py_assert _); [|discriminate G]. cbn [bind] in G.
      injection G as <-. split; [congruence|discriminate].
    - unfold o_read_data in G. rewrite R in G. cbn [bind] in G. unfold read_str in G.
      destruct (Z.eqb_spec p 0); [cbn [bind] in G; injection G as <-; tauto|].
      destruct (py_assert _); [|discriminate G]. cbn [bind] in G. destruct (py_assert _); [|discriminate G]. cbn [bind] in G.
      injection G as <-. split; [congruence|discriminate].
    - unfold o_read_struct in G. rewrite R in G. cbn [bind] in G.
      destruct (Z.eqb_spec p 0); [cbn [bind] in G; injection G as <-; tauto|].
      destruct (py_assert _); [|discriminate G]. cbn [bind] in G. destruct (init_from_pointer _ _ _); [|discriminate G]. cbn [bind] in G.
      injection G as <-. split; [congruence|discriminate].
    - unfold o_read_list in G. rewrite R in G. cbn [bind] in G.
      destruct (Z.eqb_spec p 0); [cbn [bind] in G; injection G as <-; tauto|].
      destruct (py_assert _); [|discriminate G]. cbn [bind] in G. destruct (list_init _ _ _ _ _); [|discriminate G]. cbn [bind] in G.
      injection G as <-. split; [congruence|discriminate].
    - rewrite (has_spec o d vs off O Ho) in G. cbn [bind] in G.
      destruct (v_ptr vs off); injection G as <-; (split; [intros X; apply PZ in X; first [discriminate X|reflexivity]|intros X; try discriminate X; apply PZ; reflexivity]). }
  rewrite <- H, PZ. destruct (v_ptr vs off); split; congruence.
Qed.

(** get_foo() *)
Definition empty_of (t : ftype) (g : gval) : Prop :=
  match t with
  | TText | TData => g = GBytes []
  | TStruct => exists e, g = GObj e /\ obj_den e [] []
  | TList _ => exists l, g = GList l /\ l_count l = 0
  | _ => False
  end.

Lemma get_spec o u n i dc t off ex dd g :
  t = TText \/ t = TData \/ t = TStruct \/ (exists it, t = TList it) ->
  get_slot o u (FSlot n i dc t off ex dd) = Ok g ->
  exists g', get_method o u (FSlot n i dc t off ex dd) = Ok g' /\
    (g <> GNone -> g' = g) /\ (g = GNone -> empty_of t g').
Proof.
  intros T G.
  assert (TX : forall add, (do _ <- ensure_union o u (FSlot n i dc t off ex dd);
                do b <- o_read_data o (off * 8) None add; Ok (match b with None => GNone | Some b => GBytes b end)) = Ok g ->
     exists b, (do b <- o_read_data o (off * 8) (Some []) add; Ok (match b with None => GNone | Some b => GBytes b end)) = Ok (GBytes b) /\
       (g <> GNone -> GBytes b = g) /\ (g = GNone -> b = [])).
  { intros add H. destruct (ensure_union _ _ _); [|discriminate H]. cbn [bind] in H. unfold o_read_data in *.
    destruct (o_resolve o (off * 8)) as [[pos p]|]; [|discriminate H]. cbn [bind] in *. unfold read_str in *.
    destruct (p =? 0); [cbn [bind] in *; injection H as <-; exists []; split; [reflexivity|split; [congruence|auto]]|].
    destruct (py_assert _); [|discriminate H]. cbn [bind] in *. destruct (py_assert _); [|discriminate H]. cbn [bind] in *.
    injection H as <-. eexists. split; [reflexivity|]. split; [auto|discriminate]. }
  destruct T as [->|[->|[->|(it & ->)]]].
  - destruct (TX (-1) G) as (b & E & H1 & H2). exists (GBytes b). cbn [get_method]. split; [exact E|]. split; [exact H1|].
    intros X. cbn [empty_of]. rewrite (H2 X). reflexivity.
  - destruct (TX 0 G) as (b & E & H1 & H2). exists (GBytes b). cbn [get_method]. split; [exact E|]. split; [exact H1|].
    intros X. cbn [empty_of]. rewrite (H2 X). reflexivity.
  - cbn [get_method]. rewrite G. cbn [bind]. destruct g; try (eexists; split; [reflexivity|split; [reflexivity|discriminate]]).
    eexists. split; [reflexivity|]. split; [congruence|]. intros _. cbn [empty_of]. eexists. split; [reflexivity|].
    unfold obj_den. cbn. repeat split; try lia. constructor. cbn. lia.
  - cbn [get_method]. rewrite G. cbn [bind]. destruct g; try (eexists; split; [reflexivity|split; [reflexivity|discriminate]]).
    eexists. split; [reflexivity|]. split; [congruence|]. intros _. cbn [empty_of]. eexists. split; [reflexivity|]. reflexivity.
Qed.

(** ** Duplicate names *)
Lemma gen_dup sn : ~ NoDup (map f_name (filter visible (sn_fields sn))) <-> gen sn = Err ValueError.
Proof.
  unfold gen. set (l := map f_name _). split.
  - intros N. destruct (list_eq_dec _ _ _) as [E|E]; [|reflexivity]. exfalso. apply N. rewrite <- E. apply NoDup_nodup.
  - intros H N. rewrite (nodup_id _ N) in H. destruct (list_eq_dec _ _ _) as [_|X]; [|congruence].
    destruct (_ && _); discriminate H.
Qed.

(** ** The empty struct *)
Lemma empty_struct_reads e n i t off ex d :
  obj_den e [] [] -> slot_ok 65536 65536 t off ex d ->
  get_slot e None (FSlot n i None t off ex d) = Ok
    match t with
    | TPrim _ | TEnum => GInt d
    | TBool => GBool (d =? 1)
    | TFloat32 => GF32 0
    | TFloat64 => GF64 0
    | _ => GNone
    end.
Proof.
  intros O (Ho & Hd & H). cbn [get_slot ensure_union f_disc bind].
  assert (P : forall f, o_read_primitive e (off * fsize f) f = Ok 0).
  { intros f. rewrite (o_read_primitive_spec e [] [] _ f O); [|destruct f; cbn [fsize]; lia|destruct f; cbn [fsize]; lia].
    unfold v_prim. change (blen (@nil byte)) with 0. destruct (Z.leb_spec 0 (off * fsize f)); [reflexivity|].
    destruct f; cbn [fsize] in *; lia. }
  assert (X : forall z, (if negb (z =? 0) then Z.lxor 0 z else 0) = z).
  { intros z. destruct (Z.eqb_spec z 0); [subst; reflexivity|]. cbn [negb]. apply Z.lxor_0_l. }
  assert (N : v_ptr (@nil value) off = VNull) by (unfold v_ptr; destruct (Z.to_nat off); reflexivity).
  assert (HS : has_slot e off = Ok false) by (rewrite (has_spec e [] [] off O Ho), N; reflexivity).
  destruct t; cbn [read_slot].
  - reflexivity.
  - rewrite P. cbn [bind]. rewrite X. reflexivity.
  - rewrite (P FI : o_read_primitive e (off * 4) FI = Ok 0). cbn [bind]. rewrite (Hd (proj2 H)). reflexivity.
  - rewrite (P FQ : o_read_primitive e (off * 8) FQ = Ok 0). cbn [bind]. rewrite (Hd (proj2 H)). reflexivity.
  - rewrite (o_read_bit_spec e [] [] (off / 8) _ O) by lia.
    replace (v_prim [] (off / 8) FB) with 0.
    2:{ unfold v_prim. change (blen (@nil byte)) with 0. destruct (Z.leb_spec 0 (off / 8)); [reflexivity|lia]. }
    cbn [bind]. rewrite Z.land_0_l. destruct H as (_ & [->| ->]); reflexivity.
  - rewrite (P Fh : o_read_primitive e (off * 2) Fh = Ok 0). cbn [bind]. rewrite X. reflexivity.
  - rewrite Z.mul_comm. rewrite (o_read_data_spec e [] [] off None (-1) (Ok None) O Ho) by (rewrite N; reflexivity). reflexivity.
  - rewrite Z.mul_comm. rewrite (o_read_data_spec e [] [] off None 0 (Ok None) O Ho) by (rewrite N; reflexivity). reflexivity.
  - pose proof (o_read_struct_spec e [] [] off O Ho) as R. rewrite N in R. rewrite Z.mul_comm, R. reflexivity.
  - pose proof (o_read_list_spec e [] [] off t O Ho) as R. rewrite N in R. rewrite Z.mul_comm, R. reflexivity.
  - rewrite HS. reflexivity.
Qed.
