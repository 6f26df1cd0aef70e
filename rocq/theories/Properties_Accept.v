(** Property theorems C72: which schemas the compiler accepts.

    Reading guide. A schema file is a list of declarations ([cnode]); a struct
    has fields ([cfield]), its key annotation and nested declarations.
    [compile pyx text_type pyname nodes] is the run of the compiler, of which
    only the exception matters: Ok tt, or Err e. *)
From Coq Require Import Strings.String.
From Verif Require Import Base Spec BaseFacts Ptr Segment Struct List Query Case CaseFacts Ctor Options Loader Const NamesFacts PyGroup Properties_PyGroup Accept.
From Coq Require Import Lists.List.
Local Notation length := Datatypes.length.
Local Open Scope list_scope.
Local Open Scope Z_scope.

(** ** What is not supported *)

(** The type inside of all the List( ) *)
Fixpoint innermost (t : sty) : sty := match t with SList u => innermost u | _ => t end.

(** A field whose type is not supported, and the exception *)
Inductive bad_slot : sty -> bool -> exn -> Prop :=
| bs_default t : match t with SBool | SInt _ | SFloat32 | SFloat64 | SEnum _ => False | _ => True end ->
    bad_slot t true ValueError                                (* x :Text = "foo" *)
| bs_interface explicit : bad_slot SInterface explicit TypeError
| bs_list u explicit : innermost u = SInterface \/ innermost u = SAny -> bad_slot (SList u) explicit NotImplementedError.

Definition pointer_slot (f : cfield) : Prop :=
  match f with
  | CSlot _ _ _ (SText | SData | SStruct _ | SList _ | SAny) _ _ _ => True
  | _ => False
  end.
(** a field of type Void that is not a member of a union *)
Definition plain_void (f : cfield) : Prop := match f with CSlot _ _ false SVoid _ _ _ => True | _ => False end.
Definition is_group (f : cfield) : Prop := match f with CGroup _ _ _ _ _ _ => True | _ => False end.

(** The two fields of a $Py.nullable group *)
Inductive bad_nullable : list cfield -> exn -> Prop :=
| bn_count fs : length fs <> 2%nat -> bad_nullable fs TypeError
| bn_names a b : cf_name a <> lit "isNull" \/ cf_name b <> lit "value" -> bad_nullable [a; b] ValueError
| bn_pointer a b : pointer_slot b -> bad_nullable [a; b] ValueError
| bn_void a b : plain_void a \/ plain_void b -> bad_nullable [a; b] IndexError
| bn_group a b : is_group a -> bad_nullable [a; b] ValueError.

(** A $Py.key that names a field that does not exist *)
Definition bad_key (fs : list cfield) (key : option str) : Prop :=
  exists text names n, key = Some text /\ spells text names /\ names <> [lit "*"] /\ In n names /\ ~ In n (map cf_name fs).

(** A field alone *)
Inductive bad_field : cfield -> exn -> Prop :=
| bf_slot n o m t ex df k e : bad_slot t ex e -> bad_field (CSlot n o m t ex df k) e
| bf_nullable n o m k fs e : bad_nullable fs e -> bad_field (CGroup n o m true k fs) e
| bf_key_void n o m ex df k : bad_field (CSlot n o m SVoid ex df (Some k)) KeyError
| bf_key_slot n o m t ex df k : t <> SVoid -> bad_field (CSlot n o m t ex df (Some k)) AssertionError
| bf_key_names n o m nl k fs : bad_key fs k -> bad_field (CGroup n o m nl k fs) ValueError.

(** [within f fs]: f is one of the fields, or a field of one of the groups,
    at any depth *)
Inductive within (f : cfield) : list cfield -> Prop :=
| in_here fs : In f fs -> within f fs
| in_group fs n o m nl k gs : In (CGroup n o m nl k gs) fs -> within f gs -> within f fs.
(** [declared n nodes]: n is one of the declarations, or nested in one *)
Inductive declared (n : cnode) : list cnode -> Prop :=
| d_here l : In n l -> declared n l
| d_nested l fs k nested : In (NdStruct fs k nested) l -> declared n nested -> declared n l.

(** the fields that are parameters of the constructor *)
Definition has_param (f : cfield) : bool := match f with CSlot _ _ m SVoid _ _ _ => m | _ => true end.

Inductive problem (pyname : str -> str) (nodes : list cnode) : exn -> Prop :=
| p_interface : declared NdInterface nodes -> problem pyname nodes AssertionError
| p_field fs k nested f e : declared (NdStruct fs k nested) nodes -> within f fs -> bad_field f e -> problem pyname nodes e
| p_names fs k nested : declared (NdStruct fs k nested) nodes ->
    ~ NoDup (map (fun f => pyname (cf_name f)) (filter has_param fs)) -> problem pyname nodes ValueError
| p_key fs k nested : declared (NdStruct fs k nested) nodes -> bad_key fs k -> problem pyname nodes ValueError.

(** ** Proofs *)

Lemma bind_ok (r : res unit) (x : res unit) : (do _ <- r; x) = Ok tt <-> r = Ok tt /\ x = Ok tt.
Proof. destruct r as [[]|]; cbn [bind]; [tauto|]. split; [discriminate|]. intros (E & _); discriminate E. Qed.
Lemma bind_err (r : res unit) (x : res unit) e : (do _ <- r; x) = Err e -> r = Err e \/ x = Err e.
Proof. destruct r as [[]|]; cbn [bind]; auto. Qed.
Lemma each_ok {A} (P : A -> res unit) l : each P l = Ok tt <-> forall x, In x l -> P x = Ok tt.
Proof.
  induction l as [|a l IH]; cbn [each In]; [split; [intros _ x []|reflexivity]|].
  change ((do _ <- P a; each P l) = Ok tt <-> (forall x, a = x \/ In x l -> P x = Ok tt)). rewrite bind_ok, IH.
  split; [intros (H1 & H2) x [<- | I]; auto|]. intros H. split; [apply H; auto|intros x I; apply H; auto].
Qed.
Lemma each_err {A} (P : A -> res unit) l e : each P l = Err e -> exists x, In x l /\ P x = Err e.
Proof.
  induction l as [|a l IH]; [discriminate|]. change (each P (a :: l)) with (do _ <- P a; each P l). intros H.
  apply bind_err in H as [H|H]; [exists a; split; [left; reflexivity|exact H]|].
  destruct (IH H) as (x & I & E). exists x. split; [right; exact I|exact E].
Qed.

Section Ind.
  Variable P : cfield -> Prop.
  Hypothesis Hs : forall n o m t ex df k, P (CSlot n o m t ex df k).
  Hypothesis Hg : forall n o m nl k fs, (forall f, In f fs -> P f) -> P (CGroup n o m nl k fs).
  Lemma cfield_in : forall f, P f.
  Proof.
    fix REC 1. intros [n o m t ex df k|n o m nl k fs]; [apply Hs|]. apply Hg.
    induction fs as [|x r IH]; intros f I; [destruct I|]. destruct I as [<- | I]; [apply REC|exact (IH f I)].
  Qed.
End Ind.
Section Ind2.
  Variable P : cnode -> Prop.
  Hypothesis Hs : forall fs k nested, (forall n, In n nested -> P n) -> P (NdStruct fs k nested).
  Hypothesis Ho : forall n, match n with NdStruct _ _ _ => False | _ => True end -> P n.
  Lemma cnode_in : forall n, P n.
  Proof.
    fix REC 1. intros [fs k nested| | | |]; try (apply Ho; exact I). apply Hs.
    induction nested as [|x r IH]; intros f J; [destruct J|]. destruct J as [<- | J]; [apply REC|exact (IH f J)].
  Qed.
End Ind2.

Lemma has_param_tree f : has_param f = in_tree f.
Proof. destruct f as [n o m t ex df k|]; [|reflexivity]. destruct t; cbn; destruct m; reflexivity. Qed.
Lemma in_str x l : existsb (str_eqb x) l = true <-> In x l.
Proof.
  rewrite existsb_exists. split; [intros (y & I & E); apply str_eqb_spec in E; subst; exact I|].
  intros I. exists x. split; [exact I|now apply str_eqb_spec].
Qed.
Lemma dup_spec l : dup l = false <-> NoDup l.
Proof.
  induction l as [|x l IH]; cbn [dup]; [split; [constructor|reflexivity]|]. rewrite Bool.orb_false_iff, IH. split.
  - intros (H & D). constructor; [|exact D]. rewrite <- in_str. congruence.
  - intros D. inversion D as [|? ? N D']; subst. split; [|exact D']. rewrite <- in_str in N. now apply Bool.not_true_is_false.
Qed.

(** *** Slots *)
Lemma item_type_spec pyx tt t : tt = 1 \/ tt = 2 ->
  match innermost t with
  | SInterface | SAny => list_item_type pyx tt t = Err NotImplementedError
  | _ => exists x, list_item_type pyx tt t = Ok x
  end.
Proof.
  intros T. induction t as [| |f| | | | |t IH|r|r| |]; cbn [innermost].
  8: { destruct (innermost t); cbn [list_item_type is_builtin]; destruct pyx; first [destruct IH as (x & ->)|rewrite IH]; cbn [bind]; eauto. }
  all: cbn [list_item_type is_builtin]; destruct pyx; try reflexivity; eauto.
  all: try (destruct T as [-> | ->]; cbn; now eauto).
  all: destruct (is_imported r); eauto.
Qed.
Lemma emit_slot_ok pyx tt t ex : tt = 1 \/ tt = 2 -> (emit_slot pyx tt t ex = Ok Datatypes.tt <-> forall e, ~ bad_slot t ex e).
Proof.
  intros T. assert (TX : (tt =? tt_bytes) || (tt =? tt_unicode) = true) by (destruct T; subst; reflexivity).
  split.
  - intros H e B. unfold emit_slot in H. inversion B as [t' N|ex'|u ex' I]; subst.
    + destruct t; try contradiction N; discriminate H.
    + destruct ex; discriminate H.
    + pose proof (item_type_spec pyx tt u T) as S. destruct ex; [discriminate H|]. cbn [andb bind get_size is_void is_bool is_primitive is_pointer orb] in H.
      destruct I as [I|I]; rewrite I in S; rewrite S in H; discriminate H.
  - intros H. unfold emit_slot. destruct (ex && negb (is_primitive t || is_enum t || is_bool t)) eqn:E.
    + exfalso. apply andb_prop in E as (-> & E). apply (H ValueError). constructor. destruct t; try exact I; discriminate E.
    + cbn [bind]. destruct t; cbn [get_size is_void is_bool is_primitive is_pointer is_enum orb bind]; try reflexivity.
      * now rewrite TX.
      * pose proof (item_type_spec pyx tt t T) as S. destruct (innermost t) eqn:I; try (destruct S as (x & ->); reflexivity).
        -- exfalso. apply (H NotImplementedError). constructor. auto.
        -- exfalso. apply (H NotImplementedError). constructor. auto.
      * exfalso. apply (H TypeError). constructor.
Qed.
Lemma emit_slot_err pyx tt t ex e : tt = 1 \/ tt = 2 -> emit_slot pyx tt t ex = Err e -> bad_slot t ex e.
Proof.
  intros T. assert (TX : (tt =? tt_bytes) || (tt =? tt_unicode) = true) by (destruct T; subst; reflexivity).
  intros H. unfold emit_slot in H. destruct (ex && negb (is_primitive t || is_enum t || is_bool t)) eqn:E.
  - apply andb_prop in E as (-> & E). cbn [bind] in H. apply (f_equal (fun r => match r with Err e => e | _ => ValueError end)) in H. subst e.
    constructor. destruct t; try exact I; discriminate E.
  - cbn [bind] in H. destruct t; cbn [get_size is_void is_bool is_primitive is_pointer is_enum orb bind] in H; try discriminate H.
    + rewrite TX in H. discriminate H.
    + pose proof (item_type_spec pyx tt t T) as S. destruct (innermost t) eqn:I; try (destruct S as (x & S); rewrite S in H; discriminate H);
        rewrite S in H; apply (f_equal (fun r => match r with Err e => e | _ => ValueError end)) in H; cbn [bind] in H; subst e; constructor; auto.
    + apply (f_equal (fun r => match r with Err e => e | _ => ValueError end)) in H. subst e. constructor.
Qed.

(** *** Nullable groups *)
Lemma pointer_spec f : f_pointer f = true <-> pointer_slot f.
Proof. destruct f as [n o m t ex df k|]; [|cbn; split; [discriminate|tauto]]. destruct t; cbn; split; auto; try discriminate; tauto. Qed.
Lemma plain_void_spec f : in_tree f = false <-> plain_void f.
Proof.
  destruct f as [n o m t ex df k|]; [|cbn; split; [discriminate|tauto]].
  destruct t, m; cbn; split; auto; try discriminate; tauto.
Qed.
Lemma check_spec fs : (check fs = Ok tt <->
    exists a b, fs = [a; b] /\ cf_name a = lit "isNull" /\ cf_name b = lit "value" /\ ~ pointer_slot b) /\
  (forall e, check fs = Err e -> bad_nullable fs e).
Proof.
  destruct fs as [|a [|b [|c r]]]; try (split; [split; [discriminate|intros (x & y & E & _); discriminate E]|]; cbn [check];
    intros e E; apply (f_equal (fun r => match r with Err e => e | _ => ValueError end)) in E; subst; apply bn_count; cbn; lia).
  cbn [check]. destruct (str_eqb (cf_name a) isNull) eqn:A; cbn [negb orb].
  2: { split; [split; [discriminate|]|].
    - intros (x & y & E & X & _). pose proof (f_equal (fun l => hd x l) E) as E1. cbn [hd] in E1. subst x. exfalso.
      apply Bool.not_true_iff_false in A. apply A. apply str_eqb_spec. exact X.
    - intros e E. apply (f_equal (fun r => match r with Err e => e | _ => TypeError end)) in E. subst. apply bn_names. left. intros X.
      apply Bool.not_true_iff_false in A. apply A. apply str_eqb_spec. exact X. }
  apply str_eqb_spec in A. destruct (str_eqb (cf_name b) value) eqn:B; cbn [negb].
  2: { apply Bool.not_true_iff_false in B. rewrite str_eqb_spec in B. split; [split; [discriminate|]|].
    - intros (x & y & E & _ & X & _). pose proof (f_equal (fun l => hd y (tl l)) E) as E1. cbn [hd tl] in E1. subst y. contradiction.
    - intros e E. apply (f_equal (fun r => match r with Err e => e | _ => TypeError end)) in E. subst. apply bn_names. right. exact B. }
  apply str_eqb_spec in B. destruct (f_pointer b) eqn:Pb.
  - apply pointer_spec in Pb. split; [split; [discriminate|]|].
    + intros (x & y & E & _ & _ & X). pose proof (f_equal (fun l => hd y (tl l)) E) as E1. cbn [hd tl] in E1. subst y. contradiction.
    + intros e E. apply (f_equal (fun r => match r with Err e => e | _ => TypeError end)) in E. subst. now apply bn_pointer.
  - split; [|intros e E; discriminate E]. split; [|reflexivity]. intros _. exists a, b. rewrite <- pointer_spec. repeat split; auto. congruence.
Qed.
Lemma second_child a b : match nth_error (filter in_tree [a; b]) 1 with
  | Some v => v = b /\ ~ plain_void a /\ ~ plain_void b
  | None => plain_void a \/ plain_void b
  end.
Proof.
  cbn [filter]. destruct (in_tree a) eqn:A, (in_tree b) eqn:B; cbn [nth_error]; rewrite <- !plain_void_spec; auto.
  rewrite A, B. split; [reflexivity|]. split; discriminate.
Qed.

(** *** Keys *)
Lemma emit_key_spec fs key : (emit_key fs key = Ok tt <-> ~ bad_key fs key) /\ (forall e, emit_key fs key = Err e -> e = ValueError /\ bad_key fs key).
Proof.
  destruct key as [text|]; cbn [emit_key].
  2: { split; [split; [intros _ (x & y & z & E & _); discriminate E|reflexivity]|discriminate]. }
  assert (ST : str_eqb (strip text) [42] = true <-> names_of text = [lit "*"]).
  { split; intros H.
    - apply str_eqb_spec in H. rewrite <- names_strip, H. reflexivity.
    - pose proof (spelled_names text) as S. rewrite H in S. destruct S as (_ & pieces & -> & F).
      inversion F as [|p n ps ns (_ & T & a & b & A & B & ->) R]; subst. inversion R; subst. cbn [comma_join]. rewrite strip_spec by assumption.
      now apply str_eqb_spec. }
  destruct (str_eqb (strip text) [42]) eqn:Q.
  - apply proj1 in ST. specialize (ST eq_refl).
    replace (forallb (fun f => existsb (str_eqb f) (map cf_name fs)) (map cf_name fs)) with true.
    2: { symmetry. apply forallb_forall. intros n I. apply in_str. exact I. }
    cbn [negb]. split; [split; [|reflexivity]|discriminate]. intros _ (x & y & z & E & S & N & _).
    apply (f_equal (fun o => match o with Some t => t | None => [] end)) in E. subst x. apply N. rewrite <- ST. symmetry. now apply names_spelled.
  - assert (N : names_of text <> [lit "*"]) by (intros X; apply ST in X; discriminate X). rewrite names_strip.
    destruct (forallb (fun f => existsb (str_eqb f) (map cf_name fs)) (names_of text)) eqn:A; cbn [negb].
    + split; [split; [|reflexivity]|discriminate]. intros _ (x & y & z & E & S & _ & I & O).
      apply (f_equal (fun o => match o with Some t => t | None => [] end)) in E. subst x. apply names_spelled in S. subst y.
      rewrite forallb_forall in A. apply O, in_str, A, I.
    + assert (X : bad_key fs (Some text)).
      { assert (Y : exists n, In n (names_of text) /\ ~ In n (map cf_name fs)).
        { clear - A. induction (names_of text) as [|n l IH]; [discriminate A|]. cbn [forallb] in A. apply Bool.andb_false_iff in A as [A|A].
          - exists n. split; [left; reflexivity|]. rewrite <- in_str. congruence.
          - destruct (IH A) as (m & I & O). exists m. split; [right; exact I|exact O]. }
        destruct Y as (n & I & O). exists text, (names_of text), n. split; [reflexivity|]. split; [apply spelled_names|]. auto. }
      split; [split; [discriminate|contradiction]|]. intros e E. apply (f_equal (fun r => match r with Err e => e | _ => TypeError end)) in E. auto.
Qed.

(** *** Everything else *)
Lemma within_one g f fs : In f fs -> within g [f] -> within g fs.
Proof.
  intros I W. remember [f] as l eqn:L. destruct W as [l J|l n o m nl k gs J W]; subst l; destruct J as [J | []].
  - subst. now constructor.
  - subst. eapply in_group; eassumption.
Qed.
Lemma declared_one x n nodes : In n nodes -> declared x [n] -> declared x nodes.
Proof.
  intros I W. remember [n] as l eqn:L. destruct W as [l J|l fs k nested J W]; subst l; destruct J as [J | []].
  - subst. now constructor.
  - subst. eapply d_nested; eassumption.
Qed.

Lemma problem_mono pyname l l' e : (forall x, declared x l -> declared x l') -> problem pyname l e -> problem pyname l' e.
Proof.
  intros W [D|fs k nested f e' D H B|fs k nested D H|fs k nested D H].
  - apply p_interface, W, D.
  - eapply p_field; [apply W, D|exact H|exact B].
  - eapply p_names; [apply W, D|exact H].
  - eapply p_key; [apply W, D|exact H].
Qed.
Section Facts.
  Variables (pyx : bool) (tt : Z).
  Hypothesis T : tt = 1 \/ tt = 2.
  Notation fe := (field_emit pyx tt).

  (** a group without problems inside: no field within, or the group itself *)
  Definition clean (f : cfield) : Prop :=
    (forall e, ~ bad_field f e) /\ match f with CGroup _ _ _ _ _ fs => forall g e, within g fs -> ~ bad_field g e | _ => True end.
  Lemma clean_group n o m nl k fs : clean (CGroup n o m nl k fs) -> forall g, In g fs -> clean g.
  Proof.
    intros (_ & C) g I. split; [intros e; apply C; now constructor|]. destruct g as [|n' o' m' nl' k' gs]; [exact Logic.I|].
    intros h e W. apply C. eapply in_group; eassumption.
  Qed.
  Lemma declare_key_ok f : (forall e, ~ bad_field f e) -> declare_key f = Ok Datatypes.tt.
  Proof.
    intros C. destruct f as [n o m t ex df [k|]|n o m nl [k|] fs]; try reflexivity. exfalso.
    destruct (is_void t) eqn:V; [destruct t; try discriminate V; exact (C _ (bf_key_void _ _ _ _ _ _))|].
    apply (C AssertionError). apply bf_key_slot. intros ->. discriminate V.
  Qed.
  Lemma declare_key_err f e : declare_key f = Err e -> bad_field f e.
  Proof.
    destruct f as [n o m t ex df [k|]|n o m nl [k|] fs]; try discriminate. cbn [declare_key cf_key]. intros E.
    destruct (is_void t) eqn:V; apply (f_equal (fun r => match r with Err e => e | _ => TypeError end)) in E; subst e.
    - destruct t; try discriminate V. apply bf_key_void.
    - apply bf_key_slot. intros ->. discriminate V.
  Qed.
  Lemma field_emit_ok f : (forall e, ~ bad_field f e) -> fe f = Ok Datatypes.tt.
  Proof.
    intros C. destruct f as [n o m t ex df k|n o m [|] k fs]; cbn [field_emit]; [| |reflexivity].
    - apply emit_slot_ok; [exact T|]. intros e B. apply (C e). now constructor.
    - destruct (check fs) as [[]|e] eqn:E; [reflexivity|]. exfalso. apply (C e). constructor. now apply check_spec.
  Qed.
  Lemma field_emit_err f e : fe f = Err e -> bad_field f e.
  Proof.
    destruct f as [n o m t ex df k|n o m [|] k fs]; cbn [field_emit]; [| |discriminate].
    - intros E. constructor. eapply emit_slot_err; eassumption.
    - intros E. constructor. now apply check_spec.
  Qed.
  Lemma nullable_of n o m k fs : (forall e, ~ bad_field (CGroup n o m true k fs) e) ->
    exists a b, fs = [a; b] /\ cf_name b = lit "value" /\ ~ plain_void a /\ ~ plain_void b /\ ~ is_group a /\ check fs = Ok Datatypes.tt.
  Proof.
    intros C. destruct (check fs) as [[]|e] eqn:E; [|exfalso; apply (C e); constructor; now apply check_spec].
    destruct (proj1 (proj1 (check_spec fs)) E) as (a & b & -> & A & B & Pb). exists a, b. split; [reflexivity|]. split; [exact B|].
    split; [|split; [|split; [|reflexivity]]]; intros X; [apply (C IndexError)|apply (C IndexError)|apply (C ValueError)]; constructor; [apply bn_void; auto|apply bn_void; auto|now apply bn_group].
  Qed.
  Lemma get_default_ok force f : (forall e, ~ bad_field f e) -> get_default force f = Ok Datatypes.tt.
  Proof.
    intros C. unfold get_default. destruct (cf_member f && _); [reflexivity|]. destruct f as [|n o m [|] k fs]; try reflexivity.
    destruct (nullable_of _ _ _ _ _ C) as (a & b & -> & Nb & Va & Vb & G & Ch). rewrite Ch. cbn [bind].
    destruct a as [n1 o1 m1 t1 ex1 df1 k1|]; [|exfalso; exact (G I)]. destruct df1; [reflexivity|].
    pose proof (second_child (CSlot n1 o1 m1 t1 ex1 false k1) b) as S2. destruct (nth_error _ 1); [reflexivity|]. tauto.
  Qed.
  Lemma get_default_err force f e : get_default force f = Err e -> bad_field f e.
  Proof.
    unfold get_default. destruct (cf_member f && _); [discriminate|]. destruct f as [|n o m [|] k fs]; try discriminate. intros E.
    constructor. destruct (check fs) as [[]|e'] eqn:Ch; cbn [bind] in E.
    2: { apply (f_equal (fun r => match r with Err e => e | _ => TypeError end)) in E. subst. now apply check_spec. }
    destruct (proj1 (proj1 (check_spec fs)) Ch) as (a & b & -> & A & B & Pb).
    destruct a as [n1 o1 m1 t1 ex1 df1 k1|].
    - destruct df1; [discriminate E|]. pose proof (second_child (CSlot n1 o1 m1 t1 ex1 false k1) b) as S2. destruct (nth_error _ 1); [discriminate E|].
      apply (f_equal (fun r => match r with Err e => e | _ => TypeError end)) in E. subst e. now apply bn_void.
    - apply (f_equal (fun r => match r with Err e => e | _ => TypeError end)) in E. subst e. apply bn_group. exact I.
  Qed.

  (** either the traversal succeeds, or there is a bad field inside *)
  Lemma declare_group_ok f : clean f -> declare_group f = Ok Datatypes.tt.
  Proof.
    induction f as [|n o m nl k fs IH] using cfield_in; [reflexivity|]. intros C. cbn [declare_group]. apply bind_ok. split; apply each_ok; intros g I.
    - apply IH; [exact I|]. eapply clean_group; eassumption.
    - apply declare_key_ok. apply (clean_group _ _ _ _ _ _ C g I).
  Qed.
  Lemma declare_group_err f e : declare_group f = Err e -> exists g, within g [f] /\ bad_field g e.
  Proof.
    induction f as [|n o m nl k fs IH] using cfield_in; [discriminate|]. cbn [declare_group]. intros E. apply bind_err in E as [E|E]; apply each_err in E as (g & I & E).
    - destruct (IH g I E) as (h & W & B). exists h. split; [|exact B]. eapply in_group; [left; reflexivity|]. eapply within_one; eassumption.
    - exists g. split; [|now apply declare_key_err]. eapply in_group; [left; reflexivity|]. now constructor.
  Qed.
  Lemma define_group_ok f : clean f -> define_group pyx tt f = Ok Datatypes.tt.
  Proof.
    induction f as [|n o m nl k fs IH] using cfield_in; [reflexivity|]. intros C. cbn [define_group]. rewrite !bind_ok. repeat split.
    - apply each_ok. intros g I. apply IH; [exact I|]. eapply clean_group; eassumption.
    - apply each_ok. intros g I. apply field_emit_ok. apply (clean_group _ _ _ _ _ _ C g I).
    - apply emit_key_spec. intros B. apply (proj1 C ValueError). now constructor.
  Qed.
  Lemma define_group_err f e : define_group pyx tt f = Err e -> exists g, within g [f] /\ bad_field g e.
  Proof.
    induction f as [|n o m nl k fs IH] using cfield_in; [discriminate|]. cbn [define_group]. intros E. apply bind_err in E as [E|E]; [|apply bind_err in E as [E|E]].
    - apply each_err in E as (g & I & E). destruct (IH g I E) as (h & W & B). exists h. split; [|exact B]. eapply in_group; [left; reflexivity|]. eapply within_one; eassumption.
    - apply each_err in E as (g & I & E). exists g. split; [|now apply field_emit_err]. eapply in_group; [left; reflexivity|]. now constructor.
    - apply emit_key_spec in E as (-> & B). eexists. split; [constructor; left; reflexivity|]. now constructor.
  Qed.
  Lemma node_ok force f : clean f -> node force f = Ok Datatypes.tt.
  Proof.
    induction f as [|n o m nl k fs IH] using cfield_in; intros C; cbn [node]; [apply get_default_ok, C|]. apply bind_ok. split; [|apply get_default_ok, C].
    apply each_ok. intros g I. destruct (in_tree g); [|reflexivity]. apply IH; [exact I|]. eapply clean_group; eassumption.
  Qed.
  Lemma node_err force f e : node force f = Err e -> exists g, within g [f] /\ bad_field g e.
  Proof.
    induction f as [|n o m nl k fs IH] using cfield_in; cbn [node]; intros E.
    - eexists. split; [constructor; left; reflexivity|]. now apply get_default_err in E.
    - apply bind_err in E as [E|E].
      + apply each_err in E as (g & I & E). destruct (in_tree g); [|discriminate E]. destruct (IH g I E) as (h & W & B). exists h. split; [|exact B]. eapply in_group; [left; reflexivity|]. eapply within_one; eassumption.
      + eexists. split; [constructor; left; reflexivity|]. now apply get_default_err in E.
  Qed.
  Lemma slot_list n o m u ex df k : (forall e, ~ bad_field (CSlot n o m (SList u) ex df k) e) -> exists x, list_item_type pyx tt u = Ok x.
  Proof.
    intros C. pose proof (item_type_spec pyx tt u T) as S. destruct (innermost u) eqn:I; try exact S; exfalso; apply (C NotImplementedError); constructor; constructor; auto.
  Qed.
  Lemma handle_node_ok f : clean f -> handle_node pyx tt f = Ok Datatypes.tt.
  Proof.
    induction f as [n o m t ex df k|n o m nl k fs IH] using cfield_in; intros C; cbn [handle_node].
    - destruct t; try reflexivity. destruct (slot_list _ _ _ _ _ _ _ (proj1 C)) as (x & ->). reflexivity.
    - apply bind_ok. split.
      + destruct nl; [|reflexivity]. destruct (nullable_of _ _ _ _ _ (proj1 C)) as (a & b & -> & Nb & Va & Vb & _).
        pose proof (second_child a b) as S2. destruct (nth_error _ 1); [|tauto]. destruct S2 as (-> & _). rewrite Nb. reflexivity.
      + apply each_ok. intros g I. destruct (in_tree g); [|reflexivity]. apply IH; [exact I|]. eapply clean_group; eassumption.
  Qed.
  (** when the groups have been defined already *)
  Lemma handle_node_err f e : fe f = Ok Datatypes.tt -> define_group pyx tt f = Ok Datatypes.tt ->
    handle_node pyx tt f = Err e -> exists g, within g [f] /\ bad_field g e.
  Proof.
    induction f as [n o m t ex df k|n o m nl k fs IH] using cfield_in; cbn [handle_node]; intros F D E.
    - eexists. split; [constructor; left; reflexivity|]. destruct t; try discriminate E. pose proof (item_type_spec pyx tt t T) as S.
      destruct (innermost t) eqn:I; try (destruct S as (x & S); rewrite S in E; discriminate E); rewrite S in E;
        apply (f_equal (fun r => match r with Err e => e | _ => TypeError end)) in E; cbn [bind] in E; subst e; constructor; constructor; auto.
    - apply bind_err in E as [E|E].
      + destruct nl; [|discriminate E]. cbn [field_emit] in F. destruct (proj1 (proj1 (check_spec fs)) F) as (a & b & -> & A & B & Pb).
        pose proof (second_child a b) as S2. destruct (nth_error _ 1).
        * destruct S2 as (-> & _). rewrite B in E. discriminate E.
        * apply (f_equal (fun r => match r with Err e => e | _ => TypeError end)) in E. subst e.
          eexists. split; [constructor; left; reflexivity|]. constructor. now apply bn_void.
      + cbn [define_group] in D. rewrite !bind_ok in D. destruct D as (D1 & D2 & _). rewrite each_ok in D1, D2.
        apply each_err in E as (g & I & E). destruct (in_tree g); [|discriminate E].
        destruct (IH g I (D2 g I) (D1 g I) E) as (h & W & B). exists h. split; [|exact B]. eapply in_group; [left; reflexivity|]. eapply within_one; eassumption.
  Qed.
End Facts.

Lemma clean_all fs : (forall g e, within g fs -> ~ bad_field g e) -> forall f, In f fs -> clean f.
Proof.
  intros H f I. split; [intros e; apply H; now constructor|]. destruct f as [|n o m nl k gs]; [exact Logic.I|].
  intros g e W. apply H. eapply in_group; eassumption.
Qed.
(** the names of the parameters *)
Lemma params fs pyname : dup (map (fun f => pyname (cf_name f)) (filter in_tree fs)) = false <->
  NoDup (map (fun f => pyname (cf_name f)) (filter has_param fs)).
Proof. rewrite (filter_ext _ _ has_param_tree). apply dup_spec. Qed.

Lemma each_in_tree (P : cfield -> res unit) fs x : In x (filter in_tree fs) -> In x fs.
Proof. intros I. now apply filter_In in I. Qed.

(** If the compiler refuses the file, there is a reason. *)
Theorem C72_refused : forall pyx tt pyname nodes e, tt = 1 \/ tt = 2 ->
  compile pyx tt pyname nodes = Err e -> problem pyname nodes e.
Proof.
  intros pyx tt pyname nodes e T E. unfold compile in E.
  assert (D : forall n, declare n = Err e -> problem pyname [n] e).
  { induction n as [fs k nested IH|n O] using cnode_in; cbn [declare]; intros H.
    - assert (Me : forall l, declared (NdStruct fs k nested) (NdStruct fs k nested :: l)) by (intros l; constructor; now left).
      apply bind_err in H as [H|H]; [|apply bind_err in H as [H|H]]; apply each_err in H as (x & I & H).
      + specialize (IH x I H).
        assert (W : forall n, declared n [x] -> declared n [NdStruct fs k nested]).
        { intros n Dn. eapply d_nested; [left; reflexivity|]. eapply declared_one; eassumption. }
        exact (problem_mono _ _ _ _ W IH).
      + apply declare_group_err in H as (g & W & B). eapply p_field; [apply (Me [])|eapply within_one; eassumption|exact B].
      + apply declare_key_err in H. eapply p_field; [apply (Me [])|apply in_here; exact I|exact H].
    - destruct n; try discriminate H; [contradiction O|]. apply (f_equal (fun r => match r with Err e => e | _ => TypeError end)) in H. subst. apply p_interface. constructor. now left. }
  assert (F : forall n, define pyx tt pyname n = Err e -> problem pyname [n] e).
  { induction n as [fs k nested IH|n O] using cnode_in; cbn [define]; intros H.
    2: { destruct n; first [discriminate H|contradiction O]. }
    assert (Me : declared (NdStruct fs k nested) [NdStruct fs k nested]) by (constructor; now left).
    apply bind_err in H as [H|H].
    { apply each_err in H as (x & I & H). specialize (IH x I H).
      assert (W : forall n, declared n [x] -> declared n [NdStruct fs k nested]).
      { intros n Dn. eapply d_nested; [left; reflexivity|]. eapply declared_one; eassumption. }
      exact (problem_mono _ _ _ _ W IH). }
    destruct (each (define_group pyx tt) fs) as [[]|e1] eqn:G; cbn [bind] in H.
    2: { apply (f_equal (fun r => match r with Err e => e | _ => TypeError end)) in H. subst e1. apply each_err in G as (x & I & G).
      apply define_group_err in G as (g & W & B); [|exact T]. eapply p_field; [exact Me|eapply within_one; eassumption|exact B]. }
    destruct (each (field_emit pyx tt) fs) as [[]|e1] eqn:G2; cbn [bind] in H.
    2: { apply (f_equal (fun r => match r with Err e => e | _ => TypeError end)) in H. subst e1. apply each_err in G2 as (x & I & G2).
      apply field_emit_err in G2; [|exact T]. eapply p_field; [exact Me|apply in_here; exact I|exact G2]. }
    rewrite each_ok in G, G2.
    apply bind_err in H as [H|H].
    2: { apply emit_key_spec in H as (-> & B). eapply p_key; eassumption. }
    unfold emit_ctors in H. apply bind_err in H as [H|H].
    { apply each_err in H as (x & I & H). apply node_err in H as (g & W & B). eapply p_field; [exact Me|eapply within_one; [|exact W]|exact B]. now apply filter_In in I. }
    apply bind_err in H as [H|H].
    { destruct (dup _) eqn:Q; [|discriminate H]. apply (f_equal (fun r => match r with Err e => e | _ => TypeError end)) in H. subst e.
      eapply p_names; [exact Me|]. rewrite <- params. congruence. }
    apply bind_err in H as [H|H].
    { apply each_err in H as (x & I & H). apply filter_In in I as (I & _). apply handle_node_err in H as (g & W & B); [|exact T|apply G2, I|apply G, I].
      eapply p_field; [exact Me|eapply within_one; eassumption|exact B]. }
    apply each_err in H as (x & I & H). apply each_err in H as (y & J & H). apply filter_In in J as (J & _). apply filter_In in J as (J & _).
    apply node_err in H as (g & W & B). eapply p_field; [exact Me|eapply within_one; eassumption|exact B]. }
  assert (L : forall n, In n nodes -> problem pyname [n] e -> problem pyname nodes e).
  { intros n I Pn.
    assert (W : forall x, declared x [n] -> declared x nodes).
    { intros x Dn. eapply declared_one; eassumption. }
    exact (problem_mono _ _ _ _ W Pn). }
  apply bind_err in E as [E|E]; apply each_err in E as (n & I & E); eauto.
Qed.
Print Assumptions C72_refused.

(** Whatever has no problem is accepted, with and without Cython. *)
Theorem C72_accepted : forall pyx tt pyname nodes, tt = 1 \/ tt = 2 ->
  (forall e, ~ problem pyname nodes e) -> compile pyx tt pyname nodes = Ok Datatypes.tt.
Proof.
  intros pyx tt pyname nodes T N. destruct (compile pyx tt pyname nodes) as [[]|e] eqn:E; [reflexivity|].
  exfalso. exact (N e (C72_refused _ _ _ _ _ T E)).
Qed.
Print Assumptions C72_accepted.

(** And what is accepted has no problem. The only exception: a group as the
    flag of a nullable inside of a nested union is not noticed. *)
Definition flags_are_slots (nodes : list cnode) : Prop :=
  forall fs k nested n o m key a b, declared (NdStruct fs k nested) nodes -> within (CGroup n o m true key [a; b]) fs -> ~ is_group a.

Section Converse.
  Variables (pyx : bool) (tt : Z).
  Hypothesis T : tt = 1 \/ tt = 2.
  Definition passes (f : cfield) : Prop :=
    declare_group f = Ok Datatypes.tt /\ declare_key f = Ok Datatypes.tt /\ define_group pyx tt f = Ok Datatypes.tt /\
    field_emit pyx tt f = Ok Datatypes.tt /\ (in_tree f = true -> handle_node pyx tt f = Ok Datatypes.tt).
  Lemma passes_in n o m nl k fs : passes (CGroup n o m nl k fs) -> forall f, In f fs -> passes f.
  Proof.
    intros (A & _ & B & _ & C) f I. specialize (C eq_refl). cbn [declare_group define_group handle_node] in A, B, C. apply bind_ok in A; apply bind_ok in B; apply bind_ok in C.
    rewrite bind_ok in B.
    destruct A as (A1 & A2), B as (B1 & B2 & _), C as (_ & C). rewrite each_ok in A1, A2, B1, B2, C.
    unfold passes. repeat split; auto. intros X. specialize (C f I). now rewrite X in C.
  Qed.
  Lemma passes_good f : passes f -> (forall n o m k a b, f = CGroup n o m true k [a; b] -> ~ is_group a) -> forall e, ~ bad_field f e.
  Proof.
    intros (A & K & B & F & C) G e X. inversion X as [n o m t ex df k e' Y|n o m k fs e' Y|n o m ex df k|n o m t ex df k Y|n o m nl k fs Y]; subst.
    - cbn [field_emit] in F. rewrite emit_slot_ok in F by exact T. exact (F _ Y).
    - cbn [field_emit] in F. destruct (proj1 (proj1 (check_spec fs)) F) as (a & b & -> & Na & Nb & Pb).
      specialize (C eq_refl). cbn [handle_node] in C. apply bind_ok in C as (C & _). pose proof (second_child a b) as S2.
      remember [a; b] as l eqn:L. destruct Y as [l N|a' b' N|a' b' Q|a' b' V|a' b' Q].
      1: { subst l. now apply N. }
      all: pose proof (f_equal (fun l => hd a l) L) as L1; pose proof (f_equal (fun l => hd a (tl l)) L) as L2; cbn [hd tl] in L1, L2; clear L; subst a' b'.
      + destruct N; contradiction.
      + contradiction.
      + destruct (nth_error _ 1); [tauto|discriminate C].
      + exact (G _ _ _ _ _ _ eq_refl Q).
    - discriminate K.
    - cbn [declare_key cf_key] in K. destruct (is_void t); discriminate K.
    - cbn [define_group] in B. rewrite !bind_ok in B. destruct B as (_ & _ & B). apply emit_key_spec in B. contradiction.
  Qed.
  Lemma passes_within f fs : (forall g, In g fs -> passes g) -> within f fs -> passes f.
  Proof.
    intros H W. induction W as [fs I|fs n o m nl k gs I W IH]; [now apply H|]. apply IH. apply (passes_in _ _ _ _ _ _ (H _ I)).
  Qed.
End Converse.

Theorem C72_exact : forall pyx tt pyname nodes, tt = 1 \/ tt = 2 -> flags_are_slots nodes ->
  (compile pyx tt pyname nodes = Ok Datatypes.tt <-> forall e, ~ problem pyname nodes e).
Proof.
  intros pyx tt pyname nodes T FS. split; [|now apply C72_accepted]. intros E. unfold compile in E. apply bind_ok in E as (D & F). rewrite each_ok in D, F.
  assert (P1 : forall n, declared n nodes -> declare n = Ok Datatypes.tt /\ define pyx tt pyname n = Ok Datatypes.tt).
  { assert (Z1 : forall n l, declared n l -> (forall x, In x l -> declare x = Ok Datatypes.tt /\ define pyx tt pyname x = Ok Datatypes.tt) ->
      declare n = Ok Datatypes.tt /\ define pyx tt pyname n = Ok Datatypes.tt).
    { intros n l X. induction X as [l I|l fs k nested I X IH]; intros H; [auto|]. apply IH. intros x J. destruct (H _ I) as (A & B).
      cbn [declare define] in A, B. rewrite !bind_ok in A. rewrite !bind_ok in B. destruct A as (A & _), B as (B & _). rewrite each_ok in A, B. auto. }
    intros n X. apply (Z1 n nodes X). auto. }
  assert (P2 : forall fs k nested, declared (NdStruct fs k nested) nodes ->
     (forall f, In f fs -> passes pyx tt f) /\ NoDup (map (fun f => pyname (cf_name f)) (filter has_param fs)) /\ ~ bad_key fs k).
  { intros fs k nested X. destruct (P1 _ X) as (A & B). cbn [declare define] in A, B. unfold emit_ctors in B. rewrite !bind_ok in A. rewrite !bind_ok in B.
    destruct A as (_ & A1 & A2), B as (_ & B1 & B2 & (_ & B3 & B4 & _) & B5). rewrite each_ok in A1, A2, B1, B2, B4. split; [|split].
    - intros f I. unfold passes. repeat split; auto. intros Y. apply B4. apply filter_In. auto.
    - apply params. destruct (dup _); [discriminate B3|reflexivity].
    - now apply emit_key_spec. }
  intros e [X|fs k nested f e' X W B|fs k nested X N|fs k nested X N].
  - destruct (P1 _ X) as (A & _). discriminate A.
  - destruct (P2 _ _ _ X) as (A & _). revert B. apply (passes_good pyx tt T); [exact (passes_within _ _ _ _ A W)|].
    intros n o m key a b ->. exact (FS _ _ _ _ _ _ _ _ _ X W).
  - destruct (P2 _ _ _ X) as (_ & A & _). contradiction.
  - destruct (P2 _ _ _ X) as (_ & _ & A). contradiction.
Qed.
Print Assumptions C72_exact.

(** ** Accepted, but of no use *)

(** A nullable group that is a union { isNull :Void; value :Int64 } is
    accepted, but reading the field raises whatever the object contains. *)
Definition union_nullable (t : sty) : cfield :=
  CGroup (lit "x") 0 false true None [CSlot isNull 0 true SVoid false false None; CSlot value 1 true t false false None].
Theorem C72_nullable_union_refuted :
  (forall pyx tt pyname t, tt = 1 \/ tt = 2 -> is_primitive t = true ->
     compile pyx tt pyname [NdStruct [union_nullable t] None []] = Ok Datatypes.tt) /\
  (forall o u n od ds ut o1 d1 off1 e1 v1 o2 d2 t2 off2 e2 v2, d1 <> d2 ->
     exists e, get_nullable o u (FGroup n od ds true (Some ut)
                 [FSlot "is_null" o1 (Some d1) TVoid off1 e1 v1; FSlot "value" o2 (Some d2) t2 off2 e2 v2]) = Err e).
Proof.
  split.
  - intros pyx tt pyname t T P. destruct t; try discriminate P; vm_compute; destruct pyx; reflexivity.
  - intros o u n od ds ut o1 d1 off1 e1 v1 o2 d2 t2 off2 e2 v2 N. cbn [get_nullable find f_name String.eqb Ascii.eqb Bool.eqb].
    match goal with |- context [get_group o u ?f] => destruct (get_group o u f) as [g|e] eqn:G; cbn [bind]; [|eauto] end.
    cbn [get_slot ensure_union f_disc read_slot bind]. unfold o_ensure_union. destruct (o_which g (ut * 2)) as [w|e]; cbn [bind]; [|eauto].
    destruct (Z.eqb_spec w d1) as [->|]; cbn [negb bind]; [|eauto]. cbn [truthy].
    destruct (Z.eqb_spec d1 d2) as [E|_]; [contradiction|]. cbn [negb bind]. eauto.
Qed.
Print Assumptions C72_nullable_union_refuted.

(** A group as the flag is noticed, unless the nullable is a member of the
    union of another group. *)
Definition group_flag (member : bool) : cfield :=
  CGroup (lit "x") 5 member true None
    [CGroup isNull 0 false false None [CSlot (lit "a") 0 false SBool false false None]; CSlot value 1 false (SInt Fq) false false None].
Example C72_group_flag : forall pyx,
  compile pyx 1 (fun n => n) [NdStruct [group_flag false] None []] = Err ValueError /\
  compile pyx 1 (fun n => n) [NdStruct [group_flag true] None []] = Err ValueError /\
  compile pyx 1 (fun n => n) [NdStruct [CGroup (lit "g") 0 false false None [group_flag true]] None []] = Ok Datatypes.tt.
Proof. intros [|]; vm_compute; auto. Qed.

(** A schema without problems: fields of all kinds, a nullable, nested groups
    and a nested struct with a key; and one for each of the problems. *)
Definition int (n : string) (o : Z) : cfield := CSlot (lit n) o false (SInt Fi) false false None.
Definition good_schema : list cnode :=
  [NdStruct [int "x" 0; CSlot (lit "y") 1 false SText false false None;
             CSlot (lit "l") 2 false (SList (SList SData)) false false None;
             CGroup (lit "n") 3 false true None [CSlot isNull 0 false (SInt FB) true true None; int "value" 1];
             CGroup (lit "g") 4 false false (Some (lit "a , b")) [int "a" 0; int "b" 1; CGroup (lit "h") 2 false false None [int "c" 0]]]
     (Some (lit "*")) [NdStruct [int "x" 0; int "y" 1] (Some (lit " y, x")) [NdEnum]; NdEnum]; NdAnnotation; NdConst].
Example C72_ex_good : forall pyx, compile pyx 1 (fun n => n) good_schema = Ok Datatypes.tt /\ flags_are_slots good_schema.
Proof.
  intros pyx. split; [destruct pyx; vm_compute; reflexivity|].
  intros fs k nested n o m key a b D W.
  assert (X : within (CGroup n o m true key [a; b]) fs -> fs = match good_schema with NdStruct fs _ _ :: _ => fs | _ => [] end \/ fs = [int "x" 0; int "y" 1]).
  { intros _. inversion D as [l I|l fs' k' nested' I D']; subst.
    - cbn [good_schema In] in I. destruct I as [I|[I|[I|[]]]]; try discriminate I. left. apply (f_equal (fun n => match n with NdStruct f _ _ => f | _ => [] end)) in I. symmetry. exact I.
    - cbn [good_schema In] in I. destruct I as [I|[I|[I|[]]]]; try discriminate I.
      apply (f_equal (fun n => match n with NdStruct _ _ x => x | _ => [] end)) in I. subst nested'.
      inversion D' as [l I|l fs'' k'' nested'' I D'']; subst.
      + destruct I as [I|[I|[]]]; try discriminate I. right. apply (f_equal (fun n => match n with NdStruct f _ _ => f | _ => [] end)) in I. symmetry. exact I.
      + destruct I as [I|[I|[]]]; try discriminate I. apply (f_equal (fun n => match n with NdStruct _ _ x => x | _ => [] end)) in I. subst nested''.
        inversion D'' as [l I|l ? ? ? I ?]; subst; destruct I as [I|[]]; discriminate I. }
  assert (Y : forall l, (forall x, within x l -> match x with CGroup _ _ _ true _ (a :: _) => ~ is_group a | _ => True end) ->
     within (CGroup n o m true key [a; b]) l -> ~ is_group a) by (intros l H V; exact (H _ V)).
  assert (St : forall l, Forall (fun f => match f with
      | CGroup _ _ _ nl _ gs => (nl = true -> match gs with a :: _ => ~ is_group a | [] => True end) /\
           forall x, within x gs -> match x with CGroup _ _ _ true _ (a :: _) => ~ is_group a | _ => True end
      | _ => True end) l -> forall x, within x l -> match x with CGroup _ _ _ true _ (a :: _) => ~ is_group a | _ => True end).
  { intros l F x V. rewrite Forall_forall in F. destruct V as [l I|l n' o' m' nl' k' gs I V].
    - specialize (F x I). destruct x as [|n' o' m' [|] k' [|c gs]]; auto. now apply F.
    - specialize (F _ I). cbn in F. apply F. exact V. }
  apply (Y fs); [|exact W]. destruct (X W) as [-> | ->]; cbn [good_schema]; unfold int.
  all: repeat first [apply St|apply Forall_cons|apply Forall_nil|exact Logic.I|split|intros _ E; exact E|discriminate].
Qed.
Example C72_ex_bad : forall pyx,
  compile pyx 1 (fun n => n) [NdInterface] = Err AssertionError /\
  compile pyx 1 (fun n => n) [NdStruct [CSlot (lit "x") 0 false SInterface false false None] None []] = Err TypeError /\
  compile pyx 1 (fun n => n) [NdStruct [CSlot (lit "x") 0 false SText true false None] None []] = Err ValueError /\
  compile pyx 1 (fun n => n) [NdStruct [CSlot (lit "x") 0 false (SList SAny) false false None] None []] = Err NotImplementedError /\
  compile pyx 1 (fun n => n) [NdStruct [CGroup (lit "x") 0 false true None [int "value" 0]] None []] = Err TypeError /\
  compile pyx 1 (fun n => n) [NdStruct [CGroup (lit "x") 0 false true None [CSlot isNull 0 false SVoid false false None; int "value" 0]] None []] = Err IndexError /\
  compile pyx 1 (fun n => n) [NdStruct [int "x" 0] (Some (lit "x,y")) []] = Err ValueError /\
  compile pyx 1 (fun n => []) [NdStruct [int "x" 0; int "y" 1] None []] = Err ValueError.
Proof. intros [|]; vm_compute; repeat split. Qed.
