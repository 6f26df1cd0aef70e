(** Property theorems C66: $Py.key and $Py.group.

    Reading guide. A text such as "x, y ,z" is a comma-separated list of
    names with any blanks around them: [spells text names]. [get_field o u f]
    is the Python expression obj.f ([u]: where the tag of the class's union
    is, None for a class without union). *)
From Coq Require Import Strings.String.
From Verif Require Import Base Spec BaseFacts Ptr Segment Struct List Query Case CaseFacts Ctor Options Loader.
From Coq Require Import Lists.List Lists.ListDec Sorting.Permutation ZifyBool.
From Verif Require Import NamesFacts StructFacts EncFacts Samples ReadFacts CtorFacts PyGroup.
Local Notation length := Datatypes.length.
Local Open Scope list_scope.
Local Open Scope Z_scope.

(** Blanks: space, \t, \n, \v, \f, \r *)
Definition blank (s : str) : Prop := Forall (fun c => In c [32; 9; 10; 11; 12; 13]) s.
(** No blank at either end *)
Definition trimmed (s : str) : Prop :=
  (forall c r, s = c :: r -> ~ In c [32; 9; 10; 11; 12; 13]) /\
  (forall c r, s = r ++ [c] -> ~ In c [32; 9; 10; 11; 12; 13]).
Fixpoint comma_join (l : list str) : str :=
  match l with [] => [] | [x] => x | x :: r => x ++ 44 :: comma_join r end.
Definition spells (text : str) (names : list str) : Prop :=
  names <> [] /\
  exists pieces, text = comma_join pieces /\
    Forall2 (fun p n => ~ In 44 p /\ trimmed n /\ exists a b, blank a /\ blank b /\ p = a ++ n ++ b) pieces names.

Lemma is_space_spec c : is_space c = true <-> In c [32; 9; 10; 11; 12; 13].
Proof. unfold is_space. cbn [In]. lia. Qed.
Lemma lstrip_blank a s : blank a -> lstrip (a ++ s) = lstrip s.
Proof.
  induction 1 as [|c a H _ IH]; [reflexivity|]. cbn [app lstrip]. apply is_space_spec in H. rewrite H. exact IH.
Qed.
Lemma lstrip_head s : (forall c r, s = c :: r -> ~ In c [32; 9; 10; 11; 12; 13]) -> lstrip s = s.
Proof.
  intros H. destruct s as [|c r]; [reflexivity|]. cbn [lstrip]. destruct (is_space c) eqn:E; [|reflexivity].
  exfalso. apply (H c r eq_refl). apply is_space_spec. exact E.
Qed.
Lemma blank_rev a : blank a -> blank (rev a).
Proof. intros H. apply Forall_forall. intros c I. apply in_rev in I. unfold blank in H. rewrite Forall_forall in H. auto. Qed.
Lemma trimmed_rev_head n : trimmed n -> forall c r, rev n = c :: r -> ~ In c [32; 9; 10; 11; 12; 13].
Proof.
  intros [_ H] c r E. apply (H c (rev r)). rewrite <- (rev_involutive n), E. reflexivity.
Qed.
Lemma strip_spec a n b : blank a -> blank b -> trimmed n -> strip (a ++ n ++ b) = n.
Proof.
  intros A B T. unfold strip. rewrite lstrip_blank by exact A.
  destruct n as [|c n].
  - cbn [app]. rewrite <- (app_nil_r b), (lstrip_blank b []) by exact B. reflexivity.
  - rewrite (lstrip_head ((c :: n) ++ b)).
    2:{ intros c' r E. injection E as <- _. exact (proj1 T c n eq_refl). }
    rewrite rev_app_distr, lstrip_blank by (apply blank_rev; exact B).
    rewrite lstrip_head by (apply trimmed_rev_head; exact T). apply rev_involutive.
Qed.
Lemma lsplit s : exists a n, s = a ++ n /\ blank a /\ lstrip s = n /\ (forall c r, n = c :: r -> ~ In c [32; 9; 10; 11; 12; 13]).
Proof.
  induction s as [|c s IH].
  - exists [], []. split; [reflexivity|]. split; [constructor|]. split; [reflexivity|]. discriminate.
  - cbn [lstrip]. destruct (is_space c) eqn:E.
    + destruct IH as (a & n & -> & A & L & H). exists (c :: a), n. split; [reflexivity|].
      split; [constructor; [apply is_space_spec; exact E|exact A]|]. auto.
    + exists [], (c :: s). split; [reflexivity|]. split; [constructor|]. split; [reflexivity|].
      intros c' r Q. injection Q as <- <-. intros I. apply is_space_spec in I. congruence.
Qed.
Lemma strip_parts s : exists a b, s = a ++ strip s ++ b /\ blank a /\ blank b /\ trimmed (strip s).
Proof.
  destruct (lsplit s) as (a & n & E & A & L & H). unfold strip. rewrite L.
  destruct (lsplit (rev n)) as (b & m & E' & B & L' & H'). rewrite L'.
  assert (EN : n = rev m ++ rev b) by (rewrite <- rev_app_distr, <- E', rev_involutive; reflexivity).
  exists a, (rev b). split; [rewrite E, EN; reflexivity|]. split; [exact A|]. split; [apply blank_rev; exact B|].
  split.
  - intros c r Q. apply (H c (r ++ rev b)). rewrite EN, Q. reflexivity.
  - intros c r Q. apply (H' c (rev r)). rewrite <- (rev_involutive m), Q, rev_app_distr. reflexivity.
Qed.

Lemma split_nonempty s : Loader.split 44 s <> [].
Proof.
  destruct s as [|c s]; cbn [Loader.split]; [discriminate|]. destruct (c =? 44); [discriminate|].
  destruct (Loader.split 44 s); discriminate.
Qed.
Lemma split_joined l : l <> [] -> Forall (fun p => ~ In 44 p) l -> Loader.split 44 (comma_join l) = l.
Proof.
  induction l as [|x l IH]; [congruence|]. intros _ F. inversion F as [|y k N Fk]; subst.
  destruct l as [|z l]; [cbn [comma_join]; apply split_one; exact N|].
  change (comma_join (x :: z :: l)) with (x ++ 44 :: comma_join (z :: l)).
  rewrite split_app, split_one, IH; [reflexivity|discriminate|exact Fk|exact N].
Qed.
Lemma join_split s : comma_join (Loader.split 44 s) = s /\ Forall (fun p => ~ In 44 p) (Loader.split 44 s).
Proof.
  induction s as [|c s [IH F]]; cbn [Loader.split].
  - split; [reflexivity|]. constructor; [intros []|constructor].
  - pose proof (split_nonempty s) as N. destruct (Z.eqb_spec c 44) as [->|C].
    + split; [|constructor; [intros []|exact F]]. destruct (Loader.split 44 s) as [|x l]; [congruence|].
      change (comma_join ([] :: x :: l)) with (44 :: comma_join (x :: l)). rewrite IH. reflexivity.
    + destruct (Loader.split 44 s) as [|x l]; [congruence|]. split.
      * rewrite <- IH. destruct l; reflexivity.
      * inversion F as [|y k Nx Fl]; subst. constructor; [|exact Fl]. intros [E|I]; [congruence|exact (Nx I)].
Qed.

Lemma names_spelled text names : spells text names -> names_of text = names.
Proof.
  intros (N & pieces & -> & F). unfold names_of. rewrite split_joined.
  - induction F as [|p n pieces names (_ & T & a & b & A & B & ->) F IH]; [reflexivity|].
    cbn [map]. rewrite strip_spec by assumption. f_equal.
    destruct F; [reflexivity|]. apply IH. discriminate.
  - intros ->. inversion F. congruence.
  - clear N. induction F as [|p n pieces names (C & _) F IH]; constructor; auto.
Qed.
Lemma spelled_names text : spells text (names_of text).
Proof.
  unfold names_of. split; [pose proof (split_nonempty text); destruct (Loader.split 44 text); [congruence|discriminate]|].
  exists (Loader.split 44 text). destruct (join_split text) as [J F]. split; [symmetry; exact J|].
  clear J. induction F as [|p l C F IH]; cbn [map]; constructor; [|exact IH].
  destruct (strip_parts p) as (a & b & E & A & B & T). split; [exact C|]. split; [exact T|]. exists a, b. auto.
Qed.

(** Blanks around the whole text are around the first and the last name. *)
Lemma blank_no_comma a : blank a -> ~ In 44 a.
Proof. intros A I. unfold blank in A. rewrite Forall_forall in A. specialize (A _ I). cbn [In] in A. lia. Qed.
Lemma split_blank_left a s : blank a ->
  Loader.split 44 (a ++ s) = match Loader.split 44 s with x :: l => (a ++ x) :: l | [] => [] end.
Proof.
  intros A. induction A as [|c a H A IH]; cbn [app].
  - destruct (Loader.split 44 s) eqn:E; [destruct (split_nonempty s E)|reflexivity].
  - cbn [Loader.split]. destruct (Z.eqb_spec c 44) as [->|_]; [cbn [In] in H; lia|]. rewrite IH.
    destruct (Loader.split 44 s) eqn:E; [destruct (split_nonempty s E)|reflexivity].
Qed.
Lemma split_blank_right b s : blank b ->
  Loader.split 44 (s ++ b) = removelast (Loader.split 44 s) ++ [last (Loader.split 44 s) [] ++ b].
Proof.
  intros B. induction s as [|c s IH]; cbn [app].
  - cbn [Loader.split removelast last app]. apply split_one. apply blank_no_comma. exact B.
  - cbn [Loader.split]. pose proof (split_nonempty s) as N. destruct (c =? 44).
    + rewrite IH. destruct (Loader.split 44 s) as [|x l]; [congruence|]. reflexivity.
    + rewrite IH. destruct (Loader.split 44 s) as [|x l]; [congruence|]. destruct l as [|y l]; [reflexivity|].
      reflexivity.
Qed.
Lemma strip_left a x : blank a -> strip (a ++ x) = strip x.
Proof. intros A. unfold strip. rewrite lstrip_blank by exact A. reflexivity. Qed.
Lemma strip_right b x : blank b -> strip (x ++ b) = strip x.
Proof.
  intros B. destruct (strip_parts x) as (a & b' & E & A & B' & T). rewrite E at 1.
  rewrite <- !app_assoc. apply strip_spec; [exact A| |exact T]. apply Forall_app. split; [exact B'|exact B].
Qed.
Lemma names_strip text : names_of (strip text) = names_of text.
Proof.
  destruct (strip_parts text) as (a & b & E & A & B & _). rewrite E at 2. unfold names_of.
  rewrite split_blank_left by exact A. rewrite split_blank_right by exact B.
  pose proof (split_nonempty (strip text)) as N.
  assert (P : map strip (removelast (Loader.split 44 (strip text)) ++ [last (Loader.split 44 (strip text)) [] ++ b])
              = map strip (Loader.split 44 (strip text))).
  { rewrite map_app. cbn [map]. rewrite strip_right by exact B.
    transitivity (map strip (removelast (Loader.split 44 (strip text)) ++ [last (Loader.split 44 (strip text)) []]));
      [rewrite map_app; reflexivity|]. f_equal. symmetry. apply app_removelast_last. exact N. }
  destruct (removelast _ ++ _) as [|x l] eqn:R; [destruct (removelast (Loader.split 44 (strip text))); discriminate|].
  rewrite <- P. cbn [map]. rewrite strip_left by exact A. reflexivity.
Qed.

(** Every text spells exactly one list of names. *)
Theorem C66_one_spelling : forall text, exists names, spells text names /\ forall names', spells text names' -> names' = names.
Proof.
  intros text. exists (names_of text). split; [apply spelled_names|]. intros n' H. symmetry. apply names_spelled. exact H.
Qed.
Print Assumptions C66_one_spelling.

(** ** Keys *)

Lemma field_get_spec fs n : NoDup (map fst fs) ->
  match field_get fs n with
  | Some f => In (n, f) fs
  | None => ~ In n (map fst fs)
  end.
Proof.
  induction fs as [|[m f] fs IH]; intros D; cbn [field_get]; [intros []|].
  cbn [map fst] in D. inversion D as [|x l N D']; subst. specialize (IH D').
  destruct (field_get fs n) as [g|]; [right; exact IH|].
  destruct (str_eqb m n) eqn:E.
  - apply str_eqb_spec in E. subst. left. reflexivity.
  - intros [X|X]; [|exact (IH X)]. cbn [fst] in X. subst. rewrite (proj2 (str_eqb_spec n n) eq_refl) in E. discriminate.
Qed.
Lemma field_in fs n : NoDup (map fst fs) -> In n (map fst fs) -> exists f, field_get fs n = Some f /\ In (n, f) fs.
Proof.
  intros D I. pose proof (field_get_spec fs n D) as S1. destruct (field_get fs n) as [f|]; [exists f; auto|contradiction].
Qed.
Lemma lookup_all fs ns : NoDup (map fst fs) -> (forall n, In n ns -> In n (map fst fs)) ->
  exists l, mapM (fun n => match field_get fs n with Some f => Ok f | None => Err KeyError end) ns = Ok l /\
            Forall2 (fun n f => In (n, f) fs) ns l.
Proof.
  intros D. induction ns as [|n ns IH]; intros H; cbn [mapM].
  - exists []. split; [reflexivity|constructor].
  - destruct (field_in fs n D (H n (or_introl eq_refl))) as (f & E & I). rewrite E. cbn [bind].
    destruct (IH (fun m I => H m (or_intror I))) as (l & E' & F). rewrite E'. cbn [bind].
    exists (f :: l). split; [reflexivity|]. constructor; assumption.
Qed.
Lemma lookup_unknown fs ns n : NoDup (map fst fs) -> In n ns -> ~ In n (map fst fs) ->
  mapM (fun n => match field_get fs n with Some f => Ok f | None => Err KeyError end) ns = Err KeyError.
Proof.
  intros D I N. induction ns as [|m ns IH]; [destruct I|]. cbn [mapM].
  destruct (field_get fs m) as [f|] eqn:E; cbn [bind]; [|reflexivity].
  destruct I as [->|I]; [|rewrite (IH I); reflexivity].
  exfalso. pose proof (field_get_spec fs n D) as S1. rewrite E in S1. apply N, in_map_iff. exists (n, f). auto.
Qed.
Lemma existsb_in n l : existsb (str_eqb n) l = true <-> In n l.
Proof.
  rewrite existsb_exists. split.
  - intros (x & I & E). apply str_eqb_spec in E. subst. exact I.
  - intros I. exists n. split; [exact I|apply str_eqb_spec; reflexivity].
Qed.
Lemma lookup_self fs : NoDup (map fst fs) ->
  mapM (fun n => match field_get fs n with Some f => Ok f | None => Err KeyError end) (map fst fs) = Ok (map snd fs).
Proof.
  intros D. destruct (lookup_all fs (map fst fs) D (fun n I => I)) as (l & E & F). rewrite E. f_equal.
  assert (G : forall a, (forall x, In x a -> In x fs) -> forall l, Forall2 (fun n f => In (n, f) fs) (map fst a) l -> l = map snd a).
  { induction a as [|[n f] a IH]; intros H k Fk; cbn [map fst] in Fk; inversion Fk as [|x y xs ys I R]; subst; [reflexivity|].
    cbn [map snd]. f_equal; [|apply IH; [intros x J; apply H; right; exact J|exact R]].
    assert (J : In (n, f) fs) by (apply H; left; reflexivity).
    clear -D I J. induction fs as [|[m g] fs IH]; [destruct I|]. cbn [map fst] in D. inversion D as [|u v N D']; subst.
    destruct I as [I|I], J as [J|J]; try congruence.
    - exfalso. injection I as -> ->. apply N, in_map_iff. exists (n, f). auto.
    - exfalso. injection J as -> ->. apply N, in_map_iff. exists (n, y). auto.
    - exact (IH D' I J). }
  apply (G fs); [auto|exact F].
Qed.

(** C66a. The key of a class with $Py.key("x, y"): the named fields, in that
    order. The names must be fields, otherwise the compilation fails; "*" is
    all the fields. *)
Theorem C66_key_fields : forall fs text names,
  NoDup (map fst fs) -> spells text names -> names <> [[42]] ->
  ((forall n, In n names -> In n (map fst fs)) /\
   (exists l, key_fields fs text = Ok l /\ Forall2 (fun n f => In (n, f) fs) names l)) \/
  ((exists n, In n names /\ ~ In n (map fst fs)) /\ key_fields fs text = Err ValueError).
Proof.
  intros fs text names D S1 NS. unfold key_fields.
  pose proof (names_spelled _ _ S1) as E.
  assert (ST : str_eqb (strip text) [42] = false).
  { apply Bool.not_true_iff_false. intros Q. apply str_eqb_spec in Q. rewrite <- names_strip, Q in E. apply NS. rewrite <- E. reflexivity. }
  rewrite ST, names_strip, E.
  destruct (forallb (fun f => existsb (str_eqb f) (map fst fs)) names) eqn:A; cbn [negb].
  - left. rewrite forallb_forall in A.
    assert (H : forall n, In n names -> In n (map fst fs)) by (intros n I; apply existsb_in, A; exact I).
    split; [exact H|]. exact (lookup_all fs names D H).
  - right. split; [|reflexivity]. clear -A. induction names as [|n names IH]; [discriminate|]. cbn [forallb] in A.
    destruct (existsb (str_eqb n) (map fst fs)) eqn:B.
    + destruct (IH A) as (m & I & N). exists m. split; [right; exact I|exact N].
    + exists n. split; [left; reflexivity|]. rewrite <- existsb_in. congruence.
Qed.
Print Assumptions C66_key_fields.
Theorem C66_key_star : forall fs text, NoDup (map fst fs) -> spells text [[42]] -> key_fields fs text = Ok (map snd fs).
Proof.
  intros fs text D (_ & pieces & -> & F). inversion F as [|p n ps ns (_ & T & a & b & A & B & ->) R]; subst. inversion R; subst.
  cbn [comma_join]. unfold key_fields. rewrite strip_spec by assumption. cbn [str_eqb].
  rewrite (proj2 (str_eqb_spec [42] [42]) eq_refl).
  replace (forallb _ (map fst fs)) with true; [apply lookup_self; exact D|].
  symmetry. apply forallb_forall. intros n I. apply existsb_in. exact I.
Qed.
Print Assumptions C66_key_star.
(** obj._key() is then the tuple of the values of these fields: a slot is
    read, a group is an object, and a nullable group is None when its flag
    is set and its value otherwise. *)
Inductive has_value (o : obj) (u : option Z) : field -> gval -> Prop :=
| hv_slot n od ds t off ex df x : get_slot o u (FSlot n od ds t off ex df) = Ok x -> has_value o u (FSlot n od ds t off ex df) x
| hv_group n od ds ut fs g : get_group o u (FGroup n od ds false ut fs) = Ok g -> has_value o u (FGroup n od ds false ut fs) (GObj g)
| hv_null n od ds ut fi fv g flag : get_group o u (FGroup n od ds true ut [fi; fv]) = Ok g ->
    get_slot g ut fi = Ok flag -> flag = GBool true \/ (exists z, flag = GInt z /\ z <> 0) ->
    has_value o u (FGroup n od ds true ut [fi; fv]) GNone
| hv_value n od ds ut fi fv g flag x : get_group o u (FGroup n od ds true ut [fi; fv]) = Ok g ->
    get_slot g ut fi = Ok flag -> flag = GBool false \/ flag = GInt 0 -> get_slot g ut fv = Ok x ->
    has_value o u (FGroup n od ds true ut [fi; fv]) x.
(** a nullable group has the two fields that it must have *)
Definition nullable_shape (f : field) : Prop :=
  match f with FGroup _ _ _ true _ fs => CtorSpec.nullable_ok fs | _ => True end.
Lemma flag_value g ut o1 t off e d x : CtorSpec.flag t -> get_slot g ut (FSlot "is_null" o1 None t off e d) = Ok x ->
  (exists b, x = GBool b) \/ (exists z, x = GInt z).
Proof.
  intros F E. unfold get_slot in E. cbn [ensure_union f_disc bind] in E. destruct t; try contradiction F; cbn [read_slot] in E.
  all: match type of E with bind ?r _ = _ => destruct r as [v|]; cbn [bind] in E; [|discriminate E] end; apply ok_inj in E; subst; eauto.
Qed.
Theorem C66_key_tuple : forall o u l xs, Forall nullable_shape l ->
  (key_tuple o u l = Ok xs <-> Forall2 (has_value o u) l xs).
Proof.
  intros o u l xs Hs.
  assert (V : forall f x, nullable_shape f -> (get_field o u f = Ok x <-> has_value o u f x)).
  { intros f x S1. destruct f as [n od ds t off ex df|n od ds [|] ut fs]; cbn [get_field].
    - split; [intros E; constructor; exact E|intros E; inversion E; assumption].
    - destruct S1 as (o1 & t1 & f1 & e1 & d1 & o2 & t2 & f2 & e2 & d2 & -> & F1 & _). cbn [get_nullable find f_name String.eqb Ascii.eqb Bool.eqb].
      match goal with |- context [get_group o u ?f] => destruct (get_group o u f) as [g|] eqn:G; cbn [bind] end.
      2: { split; [discriminate|]. intros E. inversion E; congruence. }
      match goal with |- context [bind (get_slot g ut ?f) _] => destruct (get_slot g ut f) as [flag|] eqn:Fl; cbn [bind] end.
      2: { split; [discriminate|]. intros E. inversion E; congruence. }
      destruct (flag_value _ _ _ _ _ _ _ _ F1 Fl) as [([|] & ->)|(z & ->)]; cbn [truthy].
      + split; [intros E; apply ok_inj in E; subst; eapply hv_null; eauto|]. intros E. inversion E; subst; [reflexivity|].
        replace g0 with g in * by congruence. match goal with H : _ \/ _ |- _ => destruct H end; congruence.
      + split; [intros E; eapply hv_value; eauto|]. intros E. inversion E; subst; replace g0 with g in * by congruence; [|assumption].
        match goal with H : _ \/ _ |- _ => destruct H as [?|(? & ? & ?)] end; congruence.
      + destruct (Z.eqb_spec z 0) as [->|Nz]; cbn [negb].
        * split; [intros E; eapply hv_value; eauto|]. intros E. inversion E; subst; replace g0 with g in * by congruence; [|assumption].
          match goal with H : _ \/ _ |- _ => destruct H as [?|(? & ? & ?)] end; congruence.
        * split; [intros E; apply ok_inj in E; subst; eapply hv_null; eauto|]. intros E. inversion E; subst; [reflexivity|].
          replace g0 with g in * by congruence. match goal with H : _ \/ _ |- _ => destruct H end; congruence.
    - destruct (get_group o u (FGroup n od ds false ut fs)) as [g|] eqn:G; cbn [bind].
      + split; [intros E; apply ok_inj in E; subst; constructor; exact G|]. intros E. inversion E; subst. congruence.
      + split; [discriminate|]. intros E. inversion E; congruence. }
  revert xs. induction Hs as [|f l S1 Hs IH]; intros xs; unfold key_tuple in *; cbn [mapM].
  - split; [intros H; apply ok_inj in H; subst; constructor|intros H; inversion H; reflexivity].
  - split.
    + intros H. destruct (get_field o u f) as [x|] eqn:E; [|discriminate]. cbn [bind] in H.
      destruct (mapM (get_field o u) l) as [ys|] eqn:M; [|discriminate]. cbn [bind] in H. apply ok_inj in H. subst.
      constructor; [apply V; assumption|]. apply IH. reflexivity.
    + intros H. inversion H as [|a x b ys E F]; subst. rewrite (proj2 (V _ _ S1) E). cbn [bind]. rewrite (proj2 (IH ys) F). reflexivity.
Qed.
Print Assumptions C66_key_tuple.

(** ** Groups *)

(** All the annotated fields of a schema: struct, name, field, text *)
Definition annotated (l : list pystruct) : list (pystruct * (str * field * str)) :=
  flat_map (fun p => map (pair p) (ps_groups p)) l.
Definition void_field (f : field) : Prop := exists n i dc off ex d, f = FSlot n i dc TVoid off ex d.
Lemma void_spec f : is_void f = true <-> void_field f.
Proof.
  split; [|intros (n & i & dc & off & ex & d & ->); reflexivity].
  destruct f as [n i dc t off ex d|]; [|discriminate]. destruct t; try discriminate. intros _. repeat eexists.
Qed.
Definition well_annotated (x : pystruct * (str * field * str)) : Prop :=
  let '(p, (name, f, text)) := x in
  void_field f /\ NoDup (map fst (ps_fields p)) /\
  exists names, spells text names /\ forall n, In n names -> In n (map fst (ps_fields p)).
(** The class made for an annotated field *)
Definition made (H : str -> Z) (x : pystruct * (str * field * str)) (g : pygroup) : Prop :=
  let '(p, (name, f, text)) := x in
  pg_id g = ps_id p + H name mod 10000 /\ pg_name g = name /\ pg_field g = f /\
  sn_ds (pg_node g) = sn_ds (ps_node p) /\ sn_ps (pg_node g) = sn_ps (ps_node p) /\ sn_utag (pg_node g) = None /\
  exists names, spells text names /\ Forall2 (fun n fd => In (n, fd) (ps_fields p)) names (sn_fields (pg_node g)).

(** The id of each: that of the struct, plus a hash of the name *)
Definition ids_of (H : str -> Z) (l : list (pystruct * (str * field * str))) : list Z :=
  map (fun x => ps_id (fst x) + H (fst (fst (snd x))) mod 10000) l.

Lemma from_ann_ok H ids p name f text :
  well_annotated (p, (name, f, text)) -> ~ In (ps_id p + H name mod 10000) ids ->
  exists g, from_group_annotation H ids p name f text = Ok g /\ made H (p, (name, f, text)) g.
Proof.
  intros (V & D & names & S1 & K) N. unfold from_group_annotation.
  rewrite names_strip, (names_spelled _ _ S1).
  destruct (lookup_all (ps_fields p) names D K) as (l & E & F). rewrite E. cbn [bind].
  destruct (existsb (Z.eqb (ps_id p + H name mod 10000)) ids) eqn:X.
  - exfalso. apply existsb_exists in X. destruct X as (i & I & Q). apply Z.eqb_eq in Q. subst. exact (N I).
  - cbn [negb py_assert bind]. eexists. split; [reflexivity|]. cbn [made pg_id pg_name pg_field pg_node sn_ds sn_ps sn_utag sn_fields].
    repeat (split; [reflexivity|]). exists names. auto.
Qed.
Lemma from_ann_taken H ids p name f text :
  well_annotated (p, (name, f, text)) -> In (ps_id p + H name mod 10000) ids ->
  from_group_annotation H ids p name f text = Err AssertionError.
Proof.
  intros (V & D & names & S1 & K) N. unfold from_group_annotation.
  rewrite names_strip, (names_spelled _ _ S1).
  destruct (lookup_all (ps_fields p) names D K) as (l & E & F). rewrite E. cbn [bind].
  replace (existsb (Z.eqb (ps_id p + H name mod 10000)) ids) with true; [reflexivity|].
  symmetry. apply existsb_exists. eexists. split; [exact N|apply Z.eqb_refl].
Qed.

Lemma groups_of_spec H p : forall l ids,
  Forall (fun x => well_annotated (p, x)) l ->
  (NoDup (ids_of H (map (pair p) l)) -> (forall i, In i (ids_of H (map (pair p) l)) -> ~ In i ids) ->
   exists gs, groups_of H ids p l = Ok (rev (ids_of H (map (pair p) l)) ++ ids, gs) /\ Forall2 (made H) (map (pair p) l) gs) /\
  (~ (NoDup (ids_of H (map (pair p) l)) /\ forall i, In i (ids_of H (map (pair p) l)) -> ~ In i ids) ->
   groups_of H ids p l = Err AssertionError).
Proof.
  induction l as [|[[name f] text] l IH]; intros ids W.
  - split.
    + intros _ _. exists []. split; [reflexivity|constructor].
    + intros N. exfalso. apply N. split; [constructor|intros i []].
  - inversion W as [|x y W1 W2]; subst. cbn [groups_of].
    assert (V : is_void f = true) by exact (proj2 (void_spec f) (proj1 W1)). rewrite V. cbn [py_assert bind].
    cbn [map ids_of]. change (map (fun x => ps_id (fst x) + H (fst (fst (snd x))) mod 10000) (map (pair p) l)) with (ids_of H (map (pair p) l)).
    cbn [fst snd]. set (i := ps_id p + H name mod 10000).
    destruct (in_dec Z.eq_dec i ids) as [I|I].
    + rewrite (from_ann_taken H ids p name f text W1 I). split; [|reflexivity].
      intros _ Q. exfalso. exact (Q i (or_introl eq_refl) I).
    + destruct (from_ann_ok H ids p name f text W1 I) as (g & E & M). rewrite E. cbn [bind].
      assert (GI : pg_id g = i) by exact (proj1 M). rewrite GI.
      destruct (IH (i :: ids) W2) as [IH1 IH2]. split.
      * intros D Q. inversion D as [|u v Nu Dv]; subst.
        destruct (IH1 Dv) as (gs & E' & F).
        { intros j J [<-|K]; [exact (Nu J)|exact (Q j (or_intror J) K)]. }
        rewrite E'. cbn [bind]. exists (g :: gs). split; [|constructor; assumption].
        cbn [rev]. rewrite <- app_assoc. reflexivity.
      * intros N. rewrite IH2; [reflexivity|]. intros [D Q]. apply N. split.
        -- constructor; [|exact D]. intros J. exact (Q i J (or_introl eq_refl)).
        -- intros j [<-|J]; [exact I|]. intros K. exact (Q j J (or_intror K)).
Qed.

(** C66b. In a schema whose $Py.group annotations are on Void fields and name
    fields of the struct, one class is made for each, with the named fields
    in order and the sizes of the parent -- provided that no id clashes;
    otherwise the compilation fails. *)
Theorem C66_groups_made : forall H ids l,
  Forall well_annotated (annotated l) ->
  (NoDup (ids_of H (annotated l) ++ ids) ->
   exists ids' gs, handle_py_groups H ids l = Ok (ids', gs) /\ Forall2 (made H) (annotated l) gs) /\
  (NoDup ids -> ~ NoDup (ids_of H (annotated l) ++ ids) -> handle_py_groups H ids l = Err AssertionError).
Proof.
  intros H ids l. revert ids. induction l as [|p l IH]; intros ids W.
  - split; [|intros A B; cbn in B; contradiction]. intros _. exists ids, []. split; [reflexivity|constructor].
  - cbn [annotated flat_map] in *. change (flat_map (fun p => map (pair p) (ps_groups p)) l) with (annotated l) in *.
    apply Forall_app in W. destruct W as [W1 W2].
    assert (W1' : Forall (fun x => well_annotated (p, x)) (ps_groups p)).
    { clear -W1. induction (ps_groups p) as [|x k IH]; [constructor|]. cbn [map] in W1. inversion W1; subst. constructor; auto. }
    destruct (groups_of_spec H p (ps_groups p) ids W1') as [G1 G2].
    unfold ids_of in *. rewrite map_app. fold (ids_of H (annotated l)) in *. fold (ids_of H (map (pair p) (ps_groups p))) in *.
    set (a := ids_of H (map (pair p) (ps_groups p))) in *. set (b := ids_of H (annotated l)) in *.
    assert (PERM : NoDup ((a ++ b) ++ ids) <-> NoDup (b ++ rev a ++ ids)).
    { assert (P : Permutation ((a ++ b) ++ ids) (b ++ rev a ++ ids)).
      { rewrite <- app_assoc. rewrite Permutation_app_swap_app.
        apply Permutation_app_head, Permutation_app_tail, Permutation_rev. }
      split; intros N; [exact (Permutation_NoDup P N)|exact (Permutation_NoDup (Permutation_sym P) N)]. }
    cbn [handle_py_groups].
    destruct (IH (rev a ++ ids) W2) as [IH1 IH2].
    assert (CASES : (NoDup a /\ forall i, In i a -> ~ In i ids) \/ ~ (NoDup a /\ forall i, In i a -> ~ In i ids)).
    { destruct (ListDec.NoDup_dec Z.eq_dec a) as [D|D]; [|right; tauto].
      assert (Q : (forall i, In i a -> ~ In i ids) \/ exists i, In i a /\ In i ids).
      { clear. induction a as [|x a IHa]; [left; intros i []|].
        destruct (in_dec Z.eq_dec x ids) as [I|I]; [right; exists x; split; [left; reflexivity|exact I]|].
        destruct IHa as [Q|(i & I1 & I2)]; [|right; exists i; split; [right; exact I1|exact I2]].
        left. intros i [<-|J]; [exact I|exact (Q i J)]. }
      destruct Q as [Q|(i & I1 & I2)]; [left; auto|right]. intros [_ Q]. exact (Q i I1 I2). }
    split.
    + intros N. apply PERM in N.
      assert (G : NoDup a /\ forall i, In i a -> ~ In i ids).
      { apply PERM in N. rewrite <- app_assoc in N. destruct (NoDup_app_inv _ _ N) as (N1 & N2 & N3). split; [exact N1|].
        intros i I J. exact (N3 i I (in_or_app _ _ _ (or_intror J))). }
      destruct (G1 (proj1 G) (proj2 G)) as (gs & E & F). rewrite E. cbn [bind].
      destruct (IH1 N) as (ids' & gs' & E' & F'). rewrite E'. cbn [bind].
      exists ids', (gs ++ gs'). split; [reflexivity|]. apply Forall2_app; assumption.
    + intros D N. destruct CASES as [G|G]; [|rewrite (G2 G); reflexivity].
      destruct (G1 (proj1 G) (proj2 G)) as (gs & E & F). rewrite E. cbn [bind].
      rewrite IH2; [reflexivity| |intros X; apply N, PERM, X].
      assert (ND : forall x y : list Z, NoDup x -> NoDup y -> (forall i, In i x -> ~ In i y) -> NoDup (x ++ y)).
      { clear. intros x y X Y Q. induction X as [|i x N X IHx]; [exact Y|]. cbn [app]. constructor.
        - intros I. apply in_app_or in I. destruct I as [I|I]; [exact (N I)|exact (Q i (or_introl eq_refl) I)].
        - apply IHx. intros j J. apply Q. right. exact J. }
      apply ND; [apply NoDup_rev; exact (proj1 G)|exact D|].
      intros i I J. apply in_rev in I. exact (proj2 G i I J).
Qed.
Print Assumptions C66_groups_made.

(** When an annotation is on a field that is not Void, or names an unknown
    field, the compilation fails too. *)
Theorem C66_group_errors : forall H ids p name f text names,
  NoDup (map fst (ps_fields p)) -> spells text names ->
  (~ void_field f -> forall r, groups_of H ids p ((name, f, text) :: r) = Err AssertionError) /\
  (void_field f -> (exists n, In n names /\ ~ In n (map fst (ps_fields p))) ->
   forall r, groups_of H ids p ((name, f, text) :: r) = Err KeyError).
Proof.
  intros H ids p name f text names D S1. rewrite <- void_spec. split; intros V; cbn [groups_of]; [destruct (is_void f); [congruence|reflexivity]|]. rewrite V.
  intros (n & I & N) r. cbn [py_assert bind]. unfold from_group_annotation.
  rewrite names_strip, (names_spelled _ _ S1), (lookup_unknown _ _ n D I N). reflexivity.
Qed.
Print Assumptions C66_group_errors.

(** C66c. The group is a view: for every well-formed object, obj.g exists
    when g is not part of the union (or is its current member), and then
    obj.g.x is obj.x, for every field of the group that is not part of the
    union of the struct. *)
Lemma init_same o d vs : obj_den o d vs -> init_from_buffer (o_seg o) (o_off o) (o_ds o) (o_ps o) = Ok o.
Proof.
  intros (E & Hd & Hp & B & D). unfold init_from_buffer. cbn [o_off o_ptrs].
  destruct (bytes_at_some _ _ _ _ B) as (B1 & B2 & B3 & _).
  destruct (den_ptrs_bounds _ _ _ _ D) as [P1 P2]. unfold slen in *.
  match goal with |- context [py_assert ?c] => replace c with true by (symmetry; lia) end. cbn [py_assert bind].
  match goal with |- context [py_assert ?c] => replace c with true by (symmetry; lia) end. cbn [py_assert bind].
  f_equal. destruct o as [sg off ptrs ds ps]. cbn [o_seg o_off o_ptrs o_ds o_ps] in *. f_equal. lia.
Qed.
Theorem C66_group_view : forall H p name f text g o d vs,
  made H (p, (name, f, text)) g -> obj_den o d vs ->
  (f_disc f = None -> get_py_group o (sn_utag (ps_node p)) g = Ok o) /\
  (forall t u, f_disc f = Some t -> sn_utag (ps_node p) = Some u ->
     get_py_group o (Some u) g = match o_which o (u * 2) with
                                 | Ok w => if w =? t then Ok o else Err ValueError
                                 | Err e => Err e
                                 end) /\
  (forall fd, In fd (sn_fields (pg_node g)) -> f_disc fd = None ->
     get_field o (sn_utag (pg_node g)) fd = get_field o (sn_utag (ps_node p)) fd).
Proof.
  intros H p name f text g o d vs (M1 & M2 & M3 & M4 & M5 & M6 & names & S1 & F) O.
  unfold get_py_group, get_group. rewrite M3, M6, (init_same o d vs O). split; [|split].
  - intros E. unfold ensure_union. rewrite E. reflexivity.
  - intros t u E U. unfold ensure_union. rewrite E. unfold o_ensure_union.
    destruct (o_which o (u * 2)) as [w|]; cbn [bind]; [|reflexivity].
    destruct (w =? t); reflexivity.
  - intros fd _ E. destruct fd as [n od ds t off ex df|n od ds nl ut fs]; cbn [f_disc] in E; subst; cbn [get_field].
    + reflexivity.
    + destruct nl; reflexivity.
Qed.
Print Assumptions C66_group_view.
(** ... but not for the members of the union: obj.g.x is a TypeError even
    when obj.x has a value. *)
Theorem C66_union_members_refuted : forall H p name f text g o fd t,
  made H (p, (name, f, text)) g -> In fd (sn_fields (pg_node g)) -> f_disc fd = Some t ->
  get_field o (sn_utag (pg_node g)) fd = Err TypeError.
Proof.
  intros H p name f text g o fd t (M1 & M2 & M3 & M4 & M5 & M6 & _) _ E. rewrite M6.
  destruct fd as [n od ds ty off ex df|n od ds nl ut fs]; cbn [f_disc] in E; subst; cbn [get_field]; [reflexivity|].
  destruct nl; reflexivity.
Qed.
Print Assumptions C66_union_members_refuted.

(** Whether a schema compiles depends on hash(), which changes from one run
    of Python 3 to the next: the same two groups, with two hash functions. *)
Theorem C66_hash_dependent_refuted : exists l H1 H2,
  Forall well_annotated (annotated l) /\ length (annotated l) = 2%nat /\
  (exists r, handle_py_groups H1 [100] l = Ok r) /\ handle_py_groups H2 [100] l = Err AssertionError.
Proof.
  set (x := FSlot "x" 0 None (TPrim Fq) 0 false 0).
  set (v := FSlot "g" 1 None TVoid 0 false 0). set (w := FSlot "h" 2 None TVoid 0 false 0).
  exists [mkps 100 (mksn 1 0 None [x; v; w]) [(lit "x", x); (lit "g", v); (lit "h", w)]
            [(lit "g", v, lit " x"); (lit "h", w, lit "x, x ")]].
  exists (fun s => match s with c :: _ => c | [] => 0 end), (fun _ => 1).
  assert (ND : NoDup [lit "x"; lit "g"; lit "h"]).
  { apply (NoDup_count_occ' (list_eq_dec Z.eq_dec)). intros s I. cbn [In] in I.
    repeat destruct I as [<-|I]; try reflexivity. contradiction. }
  split.
  - cbn [annotated flat_map map app ps_groups].
    apply Forall_cons; [|apply Forall_cons; [|apply Forall_nil]]; (split; [unfold void_field; repeat eexists|]; split; [exact ND|]).
    + exists (names_of (lit " x")). split; [apply spelled_names|]. intros n I. vm_compute in I. destruct I as [<-|[]]. left. reflexivity.
    + exists (names_of (lit "x, x ")). split; [apply spelled_names|]. intros n I. vm_compute in I. destruct I as [<-|[<-|[]]]; left; reflexivity.
  - split; [reflexivity|]. split; [eexists; vm_compute; reflexivity|vm_compute; reflexivity].
Qed.
Print Assumptions C66_hash_dependent_refuted.

(** Examples *)
Example C66_ex_spells : spells (lit " a ,b") [lit "a"; lit "b"].
Proof. change [lit "a"; lit "b"] with (names_of (lit " a ,b")). apply spelled_names. Qed.
Example C66_ex_key :
  let x := FSlot "x" 0 None (TPrim FI) 0 false 0 in let z := FSlot "z" 1 None TText 0 false 0 in
  let o := {| o_seg := {| sbuf := sample1; soffs := None |}; o_off := 8; o_ptrs := 16; o_ds := 1; o_ps := 2 |} in
  (do l <- key_fields [(lit "x", x); (lit "z", z)] (lit "z , x "); key_tuple o None l) = Ok [GBytes abc; GInt 42] /\
  (do l <- key_fields [(lit "x", x); (lit "z", z)] (lit " * "); key_tuple o None l) = Ok [GInt 42; GBytes abc] /\
  key_fields [(lit "x", x); (lit "z", z)] (lit "x,") = Err ValueError.
Proof. vm_compute. auto. Qed.
(** a key with a nullable group: its flag is bit 0 of the first word of
    sample1 (42: not set), or bit 1 (set); its value the number 42 *)
Example C66_ex_nullable :
  let x b := FGroup "v" 0 None true None [FSlot "is_null" 0 None TBool b false 0; FSlot "value" 1 None (TPrim FI) 0 false 0] in
  let o := {| o_seg := {| sbuf := sample1; soffs := None |}; o_off := 8; o_ptrs := 16; o_ds := 1; o_ps := 2 |} in
  Forall nullable_shape [x 0; x 1] /\ key_tuple o None [x 0; x 1] = Ok [GInt 42; GNone].
Proof.
  cbv zeta. split; [|vm_compute; reflexivity].
  repeat constructor; do 10 eexists; (split; [reflexivity|split; exact I]).
Qed.
