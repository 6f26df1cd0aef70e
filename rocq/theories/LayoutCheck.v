(** A checker for [layout_ok] (CtorSpec.v), used to show that layouts written
    out in full satisfy it. *)
From Verif Require Import Base Spec BaseFacts List Ctor CtorSpec.
From Coq Require Import String ZifyBool.
From Coq Require Import Lists.List.
Local Notation length := Datatypes.length.
Local Open Scope string_scope.
Local Open Scope list_scope.
Local Open Scope Z_scope.

(** the places of a field, as intervals: pointers?, first, number *)
Definition iv := (bool * Z * Z)%type.
Definition slot_iv (t : ftype) (off : Z) : list iv :=
  match t with
  | TVoid => []
  | TBool => [(false, off, 1)]
  | TText | TData | TStruct | TList _ | TAny => [(true, off, 1)]
  | TPrim f => [(false, 8 * (off * fsize f), 8 * fsize f)]
  | TEnum => [(false, 16 * off, 16)]
  | TFloat32 => [(false, 32 * off, 32)]
  | TFloat64 => [(false, 64 * off, 64)]
  end.
Definition tag_iv (u : option Z) : list iv := match u with Some u => [(false, 16 * u, 16)] | None => [] end.
Fixpoint field_iv (f : field) : list iv :=
  match f with
  | FSlot _ _ _ t off _ _ => slot_iv t off
  | FGroup _ _ _ _ u fs =>
      tag_iv u ++ (fix go l := match l with [] => [] | g :: r => field_iv g ++ go r end) fs
  end.
Definition disjoint (x y : iv) : bool :=
  let '(p, a, n) := x in let '(q, b, m) := y in
  negb (Bool.eqb p q) || (a + n <=? b) || (b + m <=? a).
Definition disj (xs ys : list iv) : bool := forallb (fun x => forallb (disjoint x) ys) xs.

Definition in_iv (l : loc) (x : iv) : Prop :=
  let '(p, a, n) := x in match l with LBit i => p = false /\ a <= i < a + n | LPtr k => p = true /\ a <= k < a + n end.

Lemma slot_iv_spec t off l : slot_region t off l -> exists x, In x (slot_iv t off) /\ in_iv l x.
Proof.
  destruct t; cbn [slot_region slot_iv]; intros H; try contradiction; unfold bits in *;
    first [destruct H as (i & -> & H)|subst l]; (eexists; split; [left; reflexivity|cbn [in_iv]; split; [reflexivity|lia]]).
Qed.
Lemma tag_iv_spec u l : tag_region u l -> exists x, In x (tag_iv u) /\ in_iv l x.
Proof.
  destruct u; cbn [tag_region tag_iv]; [|intros []]. intros (i & -> & H). eexists. split; [left; reflexivity|]. cbn [in_iv]. split; [reflexivity|lia].
Qed.
Fixpoint field_iv_spec (f : field) : forall l, region f l -> exists x, In x (field_iv f) /\ in_iv l x.
Proof.
  destruct f as [n o dc t off ex d|n o dc nl u fs]; intros l; cbn [region field_iv].
  - apply slot_iv_spec.
  - intros [H|H].
    + destruct (tag_iv_spec u l H) as (x & I & X). exists x. split; [apply in_or_app; left; exact I|exact X].
    + assert (G : exists x, In x ((fix go l := match l with [] => [] | g :: r => field_iv g ++ go r end) fs) /\ in_iv l x).
      { induction fs as [|g r IH]; [destruct H|]. cbn [some_of] in H. destruct H as [H|H].
        - destruct (field_iv_spec g l H) as (x & I & X). exists x. split; [apply in_or_app; left; exact I|exact X].
        - destruct (IH H) as (x & I & X). exists x. split; [apply in_or_app; right; exact I|exact X]. }
      destruct G as (x & I & X). exists x. split; [apply in_or_app; right; exact I|exact X].
Qed.
Lemma disjoint_spec x y l : disjoint x y = true -> in_iv l x -> in_iv l y -> False.
Proof.
  destruct x as ((p & a) & n), y as ((q & b) & m). unfold disjoint, in_iv. destruct l; intros D (-> & H1) (-> & H2); cbn in D; lia.
Qed.
Lemma disj_spec xs ys l : disj xs ys = true -> (exists x, In x xs /\ in_iv l x) -> (exists y, In y ys /\ in_iv l y) -> False.
Proof.
  intros D (x & Ix & X) (y & Iy & Y). unfold disj in D. rewrite forallb_forall in D. pose proof (D x Ix) as E.
  rewrite forallb_forall in E. exact (disjoint_spec x y l (E y Iy) X Y).
Qed.

Definition is_some {A} (x : option A) : bool := match x with Some _ => true | None => false end.
Fixpoint pairsb (fs : list field) : bool :=
  match fs with
  | [] => true
  | f :: r => forallb (fun g => (is_member f && is_member g) || disj (field_iv f) (field_iv g)) r && pairsb r
  end.
Definition scope_okb (ds : Z) (u : option Z) (fs : list field) : bool :=
  pairsb fs &&
  match u with Some u => (0 <=? u) && (16 * u + 16 <=? 64 * ds) | None => match discs fs with [] => true | _ => false end end &&
  forallb (fun f => disj (tag_iv u) (field_iv f)) fs &&
  forallb (fun d => (0 <=? d) && (d <? 2 ^ 15)) (discs fs) &&
  if list_eq_dec Z.eq_dec (nodup Z.eq_dec (discs fs)) (discs fs) then true else false.
Definition slot_okb (ds ps : Z) (t : ftype) (off : Z) (explicit : bool) (d : Z) : bool :=
  (0 <=? off) && (explicit || (d =? 0)) &&
  match t with
  | TVoid => true
  | TBool => (off <? 64 * ds) && ((d =? 0) || (d =? 1))
  | TPrim f => ((off + 1) * fsize f <=? 8 * ds) && (fmin f <=? d) && (d <=? fmax f)
  | TEnum => ((off + 1) * 2 <=? 8 * ds) && (fmin Fh <=? d) && (d <=? fmax Fh)
  | TFloat32 => ((off + 1) * 4 <=? 8 * ds) && negb explicit
  | TFloat64 => ((off + 1) * 8 <=? 8 * ds) && negb explicit
  | TText | TData | TStruct | TList _ | TAny => off <? ps
  end.
Definition nullable_okb (fs : list field) : bool :=
  match fs with
  | [FSlot n1 _ None t1 _ _ _; FSlot n2 _ None t2 _ _ _] =>
      String.eqb n1 "is_null" && String.eqb n2 "value" &&
      match t1 with TPrim _ | TBool => true | _ => false end &&
      match t2 with TPrim _ | TEnum | TBool | TFloat32 | TFloat64 => true | _ => false end
  | _ => false
  end.
Fixpoint field_okb (ds ps : Z) (f : field) : bool :=
  match f with
  | FSlot _ _ _ t off explicit d => slot_okb ds ps t off explicit d
  | FGroup n _ _ nullable u fs =>
      scope_okb ds u fs && (fix go l := match l with [] => true | g :: r => field_okb ds ps g && go r end) fs &&
      (if nullable then negb (String.eqb n "") && nullable_okb fs else existsb visible fs)
  end.
Definition layout_okb (sn : struct_node) : bool :=
  (0 <=? sn_ds sn) && (sn_ds sn <? 2 ^ 16) && (0 <=? sn_ps sn) && (sn_ps sn <? 2 ^ 16) &&
  scope_okb (sn_ds sn) (sn_utag sn) (sn_fields sn) &&
  forallb (field_okb (sn_ds sn) (sn_ps sn)) (sn_fields sn) &&
  (let l := "builder" :: "pos" ::
     (match sn_utag sn with Some _ => [curtag "anonymous"] | None => [] end ++ concat_of (vars "") (sn_fields sn)) in
   if list_eq_dec String.string_dec (nodup String.string_dec l) l then true else false) &&
  forallb (fun f => negb (visible f) || (negb (String.eqb (f_name f) "self") &&
                     (negb (existsb is_member (sn_fields sn)) || negb (String.eqb (f_name f) "cls")))) (sn_fields sn).

Lemma nodup_ok {A} (dec : forall x y : A, {x = y} + {x <> y}) (l : list A) (ldec : {nodup dec l = l} + {nodup dec l <> l}) :
  (if ldec then true else false) = true -> NoDup l.
Proof. destruct ldec as [E|]; [|discriminate]. intros _. rewrite <- E. apply NoDup_nodup. Qed.

Ltac bsplit H := repeat match type of H with _ && _ = true => let H' := fresh in apply andb_true_iff in H; destruct H as [H H'] end.

Lemma pairsb_ok fs : pairsb fs = true ->
  ForallOrdPairs (fun f g => (is_member f = true /\ is_member g = true) \/ apart f g) fs.
Proof.
  induction fs as [|f r IH]; intros H; [apply FOP_nil|]. cbn [pairsb] in H. apply andb_true_iff in H. destruct H as [H1 H2].
  apply FOP_cons; [|exact (IH H2)]. apply Forall_forall. intros g Ig. rewrite forallb_forall in H1. specialize (H1 g Ig).
  apply orb_true_iff in H1. destruct H1 as [H1|H1].
  - left. apply andb_true_iff in H1. exact H1.
  - right. intros l R1 R2. exact (disj_spec _ _ l H1 (field_iv_spec f l R1) (field_iv_spec g l R2)).
Qed.
Lemma scope_okb_ok ds u fs : scope_okb ds u fs = true -> scope_ok ds u fs.
Proof.
  unfold scope_okb. intros H. apply andb_true_iff in H. destruct H as [H H5]. apply andb_true_iff in H. destruct H as [H H4].
  apply andb_true_iff in H. destruct H as [H H3]. apply andb_true_iff in H. destruct H as [H1 H2].
  split; [exact (pairsb_ok fs H1)|]. split; [intros u' ->; lia|]. split.
  { intros ->. destruct (discs fs); [reflexivity|discriminate]. }
  split.
  { intros f l If T R. rewrite forallb_forall in H3. exact (disj_spec _ _ l (H3 f If) (tag_iv_spec u l T) (field_iv_spec f l R)). }
  split.
  - apply Forall_forall. intros d Id. rewrite forallb_forall in H4. specialize (H4 d Id). lia.
  - exact (nodup_ok _ _ _ H5).
Qed.
Lemma slot_okb_ok ds ps t off ex d : slot_okb ds ps t off ex d = true -> slot_ok ds ps t off ex d.
Proof.
  unfold slot_okb, slot_ok, in_fmt. intros H. apply andb_true_iff in H. destruct H as [H H2].
  split; [lia|]. split; [intros ->; lia|]. destruct t; try exact I; try lia; destruct ex; cbn in H2; split; try reflexivity; lia.
Qed.
Lemma nullable_okb_ok fs : nullable_okb fs = true -> nullable_ok fs.
Proof.
  destruct fs as [|[n1 o1 [|] t1 off1 e1 d1|] [|[n2 o2 [|] t2 off2 e2 d2|] [|]]]; try discriminate.
  cbn [nullable_okb]. intros H. apply andb_true_iff in H. destruct H as [H T2]. apply andb_true_iff in H. destruct H as [H T1].
  apply andb_true_iff in H. destruct H as [N1 N2]. apply String.eqb_eq in N1, N2. subst n1 n2.
  exists o1, t1, off1, e1, d1, o2, t2, off2, e2, d2. split; [reflexivity|].
  split; [destruct t1; try discriminate; exact I|destruct t2; try discriminate; exact I].
Qed.
Fixpoint field_okb_ok ds ps (f : field) : field_okb ds ps f = true -> field_ok ds ps f.
Proof.
  destruct f as [n o dc t off ex d|n o dc nl u fs]; cbn [field_okb field_ok].
  - apply slot_okb_ok.
  - intros H. apply andb_true_iff in H. destruct H as [H H3]. apply andb_true_iff in H. destruct H as [H1 H2].
    split; [exact (scope_okb_ok _ _ _ H1)|]. split.
    + clear H1 H3. induction fs as [|g r IH]; [exact I|]. apply andb_true_iff in H2. destruct H2 as [G R].
      split; [exact (field_okb_ok ds ps g G)|exact (IH R)].
    + destruct nl; [|exact H3]. apply andb_true_iff in H3. destruct H3 as [N V]. split; [|exact (nullable_okb_ok fs V)].
      cbn [f_name]. intros ->. discriminate N.
Qed.
Theorem layout_okb_ok sn : layout_okb sn = true -> layout_ok sn.
Proof.
  unfold layout_okb. intros H. apply andb_true_iff in H. destruct H as [H P]. apply andb_true_iff in H. destruct H as [H N].
  apply andb_true_iff in H. destruct H as [H F]. apply andb_true_iff in H. destruct H as [H S]. rewrite forallb_forall in F, P.
  constructor.
  - lia.
  - lia.
  - exact (scope_okb_ok _ _ _ S).
  - clear - F. induction (sn_fields sn) as [|f r IH]; [exact I|]. split; [exact (field_okb_ok _ _ _ (F f (or_introl eq_refl)))|].
    apply IH. intros x Ix. exact (F x (or_intror Ix)).
  - exact (nodup_ok _ _ _ N).
  - intros f If V. specialize (P f If). rewrite V in P. cbn [negb orb] in P. apply andb_true_iff in P. destruct P as [P1 P2].
    split; [intros E; rewrite E in P1; discriminate P1|]. intros M E. rewrite M, E in P2. discriminate P2.
Qed.
