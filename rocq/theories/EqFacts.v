(** C37: what list equality tells. *)
From Verif Require Import Base Spec BaseFacts Ptr PtrFacts Segment SegmentFacts Builder Copy Endof Enc EncFacts EncDen
  CopyFacts EndofFacts EndofTotal Struct Message List Query StructFacts.
From Coq Require Import ZifyBool ZifyNat.
Ltac Zify.zify_post_hook ::= Z.div_mod_to_equations.

(** A pointer has at most one value. *)
Lemma den_fun_all s :
  (forall p pos v, den s p pos v -> forall v', den s p pos v' -> v = v') /\
  (forall pos n vs, den_ptrs s pos n vs -> forall vs', den_ptrs s pos n vs' -> vs = vs') /\
  (forall pos ds ps n items, den_items s pos ds ps n items -> forall items', den_items s pos ds ps n items' -> items = items').
Proof.
  apply den_all_ind.
  - intros pos v' D. symmetry. apply (den_zero _ _ _ D).
  - intros p pos data vs Hp Hk Hb Hd IH v' D. inversion D; subst; try congruence.
    f_equal; [congruence|]. apply IH. assumption.
  - intros p pos body Hk Ht Hb v' D. inversion D; subst; try congruence; try lia; cbn in Hk; congruence.
  - intros p pos vs Hk Ht H1 H2 Hd IH v' D. inversion D; subst; try congruence; try lia.
    + cbn in Hk; congruence.
    + f_equal. apply IH. assumption.
  - intros p pos tag items slack Hk Ht Hw Hk2 Ho Hi IH Hb v' D. inversion D; subst; try congruence; try lia.
    + cbn in Hk; congruence.
    + match goal with H : word_at s (p_target p pos) = Some ?t |- _ => assert (t = tag) by congruence; subst t end.
      f_equal; [apply IH; assumption|congruence].
  - intros p pos pos' p' v Hk Hfar Hk' Hn Hd IH v' D. inversion D; subst; try congruence; try lia.
    + cbn in Hk; congruence.
    + match goal with H : far_to s p ?a ?b |- _ => destruct (far_to_fun _ _ _ _ _ _ Hfar H) as [? ?]; subst end.
      apply IH. assumption.
  - intros pos H vs' D. inversion D. reflexivity.
  - intros pos n p v vs Hw Hd IHv Hds IH vs' D. inversion D; subst.
    match goal with H : word_at s pos = Some ?t |- _ => assert (t = p) by congruence; subst t end.
    f_equal; [apply IHv|apply IH]; assumption.
  - intros pos ds ps items' D. inversion D. reflexivity.
  - intros pos ds ps n data vs items Hb Hd IHv Hi IH items' D. inversion D; subst.
    f_equal; [f_equal; [congruence|apply IHv; assumption]|apply IH; assumption].
Qed.

(** The list data has the layout its type announces. *)
Definition fits (t : itype) (v : value) : Prop :=
  match t, v with
  | ITVoid, VList tag _ _ => tag = 0
  | ITBool, VList tag _ _ => tag = 1
  | ITPrim f, VList tag _ _ => tag = tag_of f
  | ITFloat dbl, VList tag _ _ => tag = if dbl then 5 else 4
  | ITText _, VPtrs _ => True
  | ITList _, VPtrs _ => True
  | _, _ => False
  end.

Lemma fits_form t v : fits t v -> (exists tg c b, v = VList tg c b) \/ (exists vs, v = VPtrs vs).
Proof. destruct t, v; cbn; intros H; try contradiction; eauto. Qed.

Lemma lobj_off l v : lobj_den l v -> fits (l_it l) v ->
  exists p pos, den (l_seg l) p pos v /\ p_kind p = 1 /\ l_off l = p_target p pos /\ l_stag l = p_ltag p /\ l_count l = p_lcount p.
Proof.
  intros [(p & pos & D & K & I)|[-> C]] F.
  - exists p, pos. split; [exact D|]. split; [exact K|].
    unfold list_init, LIST_SIZE_COMPOSITE in I. destruct (Z.eqb_spec (p_ltag p) 7) as [T|T].
    + exfalso. destruct (fits_form _ _ F) as [(tg & c & b & ->)|(vs & ->)]; inversion D; subst; try congruence; lia.
    + apply ok_inj in I. rewrite <- I. cbn [l_off l_stag l_count]. auto.
  - destruct (l_it l); contradiction.
Qed.

Lemma self_den l v : lobj_den l v -> fits (l_it l) v ->
  den (l_seg l) (w_list 0 (l_stag l) (l_count l)) (l_off l - 8) v /\
  0 <= l_stag l < 7 /\ 0 <= l_count l < 2 ^ 29.
Proof.
  intros L F. destruct (lobj_off _ _ L F) as (p & pos & D & K & O & T & C).
  pose proof (p_ltag_range p). pose proof (p_lcount_range p).
  assert (TG : p_target (w_list 0 (l_stag l) (l_count l)) (l_off l - 8) = p_target p pos).
  { unfold p_target at 1. rewrite w_list_off by lia. lia. }
  assert (WT : p_ltag (w_list 0 (l_stag l) (l_count l)) = p_ltag p) by (rewrite w_list_tag by lia; lia).
  assert (WC : p_lcount (w_list 0 (l_stag l) (l_count l)) = p_lcount p) by (rewrite w_list_count by lia; lia).
  assert (WK : p_kind (w_list 0 (l_stag l) (l_count l)) = 1) by apply w_list_kind.
  destruct (fits_form _ _ F) as [(tg & c & b & E)|(vs & E)]; subst v.
  - inversion D; subst; try congruence. rewrite <- WT, <- WC. split; [|lia].
    apply den_list; [exact WK|lia|]. rewrite TG, WT, WC. assumption.
  - inversion D; subst; try congruence. split; [|lia].
    apply den_plist; [exact WK|lia|lia|lia|]. rewrite TG, WC. assumption.
Qed.

Lemma l_get_end_eq l v fuel : lobj_den l v -> fits (l_it l) v ->
  l_get_end fuel l = endof fuel (l_seg l) (w_list 0 (l_stag l) (l_count l)) (l_off l - 8).
Proof.
  intros L F. destruct (self_den _ _ L F) as (_ & T & C). unfold l_get_end. rewrite new_list_spec by lia. reflexivity.
Qed.

Lemma l_get_end_range l v fuel e : lobj_den l v -> fits (l_it l) v ->
  l_off l mod 8 = 0 -> slen (l_seg l) mod 8 = 0 -> (vdepth v <= fuel)%nat ->
  l_get_end fuel l = Ok e -> e <> -1 -> 0 <= l_off l /\ l_off l <= e /\ e <= slen (l_seg l).
Proof.
  intros L F A1 A2 Hf G Ne. rewrite (l_get_end_eq _ _ _ L F) in G.
  destruct (self_den _ _ L F) as (D & T & C).
  assert (N : w_list 0 (l_stag l) (l_count l) <> 0).
  { intros E. pose proof (w_list_kind 0 (l_stag l) (l_count l)) as K. rewrite E in K. cbn in K. congruence. }
  assert (TG : p_target (w_list 0 (l_stag l) (l_count l)) (l_off l - 8) = l_off l).
  { unfold p_target. rewrite w_list_off by lia. lia. }
  assert (TN : 0 <= l_off l).
  { rewrite <- TG. destruct (fits_form _ _ F) as [(tg & c & b & E)|(vs & E)]; subst v; inversion D; subst; try lia.
    - match goal with H : bytes_at _ _ _ = Some _ |- _ => apply bytes_at_some in H; lia end.
    - match goal with H : p_kind _ = 2 |- _ => rewrite w_list_kind in H; lia end.
    - match goal with H : p_kind _ = 2 |- _ => rewrite w_list_kind in H; lia end. }
  destruct (proj1 (endof_total _ A2) _ _ _ D N ltac:(lia) fuel Hf) as (e' & G' & [E|E]).
  - rewrite G in G'. apply ok_inj in G'. lia.
  - rewrite G in G'. apply ok_inj in G'. subst e'. rewrite TG in E. lia.
Qed.

Lemma same_type_fits si a b va vb : same_type si a b = true -> fits a va -> fits b vb ->
  (exists tg c1 b1 c2 b2, va = VList tg c1 b1 /\ vb = VList tg c2 b2) \/ (exists v1 v2, va = VPtrs v1 /\ vb = VPtrs v2).
Proof.
  intros S FA FB.
  destruct va as [| |tg c1 b1|v1|], vb as [| |tg2 c2 b2|v2|]; destruct a as [| |f|da| | |], b as [| |g|db| | |]; cbn [fits] in FA, FB; try contradiction.
  all: try (right; exists v1, v2; auto; fail).
  all: try discriminate S.
  all: try (destruct f; discriminate S).
  all: try (cbn [same_type] in S; apply Bool.eqb_prop in S).
  all: left; exists tg, c1, b1, c2, b2; split; [reflexivity|]; f_equal; subst; try reflexivity.
  destruct f, g; try discriminate S; reflexivity.
Qed.

Lemma sub_eq_piece (x y : bytes) a b m i n :
  sub x a m = sub y b m -> 0 <= a -> 0 <= b -> a + m <= blen x -> b + m <= blen y -> a <= i -> 0 <= n -> i + n <= a + m ->
  sub y (i + (b - a)) n = sub x i n.
Proof.
  intros E Ha Hb Hx Hy Hi Hn Hm.
  assert (X : sub x i n = sub (sub x a m) (i - a) n) by (rewrite sub_sub by lia; f_equal; lia).
  assert (Y : sub y (i + (b - a)) n = sub (sub y b m) (i - a) n) by (rewrite sub_sub by lia; f_equal; lia).
  rewrite X, Y. f_equal. symmetry. exact E.
Qed.

Lemma l_equals_true fuel si a b : l_equals fuel si a b = Ok true ->
  l_count a = l_count b /\ same_type si (l_it a) (l_it b) = true /\
  exists x, l_get_slice fuel a = Ok x /\ l_get_slice fuel b = Ok x.
Proof.
  unfold l_equals. destruct (can_compare (l_it a)); [|discriminate]. cbn [negb].
  destruct (Z.eqb_spec (l_count a) (l_count b)); [|discriminate].
  destruct (same_type si (l_it a) (l_it b)); [|discriminate]. cbn [andb].
  intros H. apply bind_ok in H. destruct H as (x & X & H). apply bind_ok in H. destruct H as (y & Y & H).
  split; [assumption|]. split; [reflexivity|]. exists x. split; [exact X|].
  destruct (list_eq_dec _ x y); [subst; exact Y|discriminate].
Qed.

Lemma equals_sound a b va vb fuel si ea eb :
  lobj_den a va -> lobj_den b vb -> fits (l_it a) va -> fits (l_it b) vb -> noslack va ->
  l_off a mod 8 = 0 -> slen (l_seg a) mod 8 = 0 -> l_off b mod 8 = 0 -> slen (l_seg b) mod 8 = 0 ->
  (vdepth va <= fuel)%nat -> (vdepth vb <= fuel)%nat ->
  l_get_end fuel a = Ok ea -> ea <> -1 -> l_get_end fuel b = Ok eb -> eb <> -1 ->
  l_equals fuel si a b = Ok true -> va = vb.
Proof.
  intros LA LB FA FB NS A1 A2 B1 B2 HfA HfB GA NA GB NB E.
  apply l_equals_true in E. destruct E as (EC & ST & x & XA & XB).
  unfold l_get_slice in XA, XB. rewrite GA in XA. rewrite GB in XB. cbn [bind] in XA, XB.
  apply ok_inj in XA. apply ok_inj in XB.
  destruct (l_get_end_range _ _ _ _ LA FA A1 A2 HfA GA NA) as (RA0 & RA1 & RA2).
  destruct (l_get_end_range _ _ _ _ LB FB B1 B2 HfB GB NB) as (RB0 & RB1 & RB2). unfold slen in *.
  rewrite py_slice_in in XA by lia. rewrite py_slice_in in XB by lia.
  assert (EL : ea - l_off a = eb - l_off b).
  { rewrite <- (blen_sub (sbuf (l_seg a)) (l_off a) (ea - l_off a)) by lia.
    rewrite <- (blen_sub (sbuf (l_seg b)) (l_off b) (eb - l_off b)) by lia. congruence. }
  assert (M : moved (l_seg a) (l_seg b) (l_off a) ea (l_off b - l_off a)).
  { unfold moved, slen. repeat split; try lia. intros i n Hi Hn Hin.
    apply (sub_eq_piece _ _ (l_off a) (l_off b) (ea - l_off a)); try lia. rewrite XA, EL, XB. reflexivity. }
  assert (TE : l_stag a = l_stag b).
  { destruct (lobj_den_attrs _ _ LA) as [_ QA]. destruct (lobj_den_attrs _ _ LB) as [_ QB].
    destruct (same_type_fits _ _ _ _ _ ST FA FB) as [(tg & c1 & x1 & c2 & x2 & -> & ->)|(v1 & v2 & -> & ->)].
    - destruct QA as (_ & _ & _ & _ & QA & _). destruct QB as (_ & _ & _ & _ & QB & _). congruence.
    - destruct QA as (_ & _ & QA & _). destruct QB as (_ & _ & QB & _). congruence. }
  destruct (self_den _ _ LA FA) as (DA & TA & CA). destruct (self_den _ _ LB FB) as (DB & TB & CB).
  rewrite <- TE, <- EC in DB.
  rewrite (l_get_end_eq _ _ _ LA FA) in GA.
  assert (N : w_list 0 (l_stag a) (l_count a) <> 0).
  { intros E. pose proof (w_list_kind 0 (l_stag a) (l_count a)) as K. rewrite E in K. cbn in K. congruence. }
  assert (TG : p_target (w_list 0 (l_stag a) (l_count a)) (l_off a - 8) = l_off a).
  { unfold p_target. rewrite w_list_off by lia. lia. }
  destruct (proj1 (reloc_all _) _ _ _ DA N NS fuel ea GA NA) as [_ R].
  specialize (R _ _ _ _ M ltac:(lia) ltac:(lia)).
  replace (l_off a - 8 + (l_off b - l_off a)) with (l_off b - 8) in R by lia.
  apply (proj1 (den_fun_all _) _ _ _ R _ DB).
Qed.

(** lists laid out canonically (as constructors, compact() and dumps() do) *)
Lemma canon_slice l v fuel : lobj_den l v -> fits (l_it l) v -> packed v -> limv v ->
  at_ (l_seg l) (l_off l) (content v) -> l_off l mod 8 = 0 -> blen (content v) <= 2 ^ 32 -> (vdepth v <= fuel)%nat ->
  l_get_slice fuel l = Ok (content v).
Proof.
  intros L F P LV AT A1 Hlen Hf. destruct (self_den _ _ L F) as (D & T & C).
  assert (W : wfv v) by (eapply den_wf; exact D).
  assert (NN : v <> VNull) by (intros ->; destruct (l_it l); contradiction).
  destruct (lobj_den_attrs _ _ L) as [QC Q].
  assert (PW : ptr_word v 0 = w_list 0 (l_stag l) (l_count l)).
  { destruct (fits_form _ _ F) as [(tg & c & b & ->)|(vs & ->)]; cbn [ptr_word vcount] in *.
    - destruct Q as (_ & _ & _ & _ & -> & _). rewrite QC. reflexivity.
    - destruct Q as (_ & _ & -> & _). rewrite QC. reflexivity. }
  assert (CC : l_count l < 2 ^ 28).
  { apply vall_root in LV. rewrite QC. destruct (fits_form _ _ F) as [(tg & c & b & ->)|(vs & ->)]; cbn [lim1 vcount] in *; lia. }
  unfold l_get_slice. rewrite (l_get_end_eq _ _ _ L F).
  rewrite (endof_enc v W P (l_seg l) _ _ (l_off l) 0 fuel NN); try lia; try assumption.
  - cbn [bind]. destruct AT as (AT0 & AT1 & AT2). unfold slen in *.
    rewrite py_slice_in by (pose proof (blen_nonneg (content v)); lia).
    replace (l_off l + blen (content v) - l_off l) with (blen (content v)) by lia. f_equal. exact AT2.
  - rewrite PW. split; [unfold w_list; lia|reflexivity].
Qed.

Lemma equals_complete a b v fuel :
  lobj_den a v -> lobj_den b v -> l_it b = l_it a -> fits (l_it a) v -> packed v -> limv v ->
  at_ (l_seg a) (l_off a) (content v) -> at_ (l_seg b) (l_off b) (content v) ->
  l_off a mod 8 = 0 -> l_off b mod 8 = 0 -> blen (content v) <= 2 ^ 32 -> (vdepth v <= fuel)%nat ->
  l_equals fuel true a b = Ok true.
Proof.
  intros LA LB IT F P LV AA AB A1 B1 Hlen Hf. unfold l_equals.
  assert (FB : fits (l_it b) v) by (rewrite IT; exact F).
  rewrite (canon_slice a v fuel LA F P LV AA A1 Hlen Hf), (canon_slice b v fuel LB FB P LV AB B1 Hlen Hf).
  rewrite (proj1 (lobj_den_attrs _ _ LA)), (proj1 (lobj_den_attrs _ _ LB)), Z.eqb_refl, IT.
  assert (CC : can_compare (l_it a) = true) by (destruct (l_it a); cbn in *; try reflexivity; contradiction).
  assert (S : same_type true (l_it a) (l_it a) = true).
  { destruct (l_it a) as [| |f|da| | |]; cbn in *; try reflexivity; try contradiction; [destruct f; reflexivity|apply Bool.eqb_reflx|apply Z.eqb_refl]. }
  rewrite CC, S. cbn [negb andb bind]. destruct (list_eq_dec _ _ _); congruence.
Qed.
