(** Comparing a capnpy list with a Python list *)
From Verif Require FloatBits FloatSpec FloatFacts.
From Verif Require Import Base Spec BaseFacts Ptr PtrFacts Segment SegmentFacts Builder Copy Endof Enc EncFacts CopyFacts EncDen Struct List Query
  StructFacts ObjFacts ListFacts EndofFacts AnyPtr EqFacts.
From Coq Require Import ZifyBool ZifyNat.
Ltac Zify.zify_post_hook ::= Z.div_mod_to_equations.

(** The Python values that the items are compared with: [YNum] an int or a
    bool (True and False are equal to 1 and 0), [YFloat] the float with these
    bits *)
Inductive pyv :=
| YNone | YNum (z : Z) | YFloat (b : Z) | YBytes (b : bytes) | YList (l : list pyv).

(** CPython's list == list for lists of the same length: the items in order,
    up to the first difference *)
Fixpoint eq_items (eq1 : item -> pyv -> res bool) (xs : list item) (ys : list pyv) : res bool :=
  match xs, ys with
  | x :: xs', y :: ys' => do b <- eq1 x y; if (b : bool) then eq_items eq1 xs' ys' else Ok false
  | _, _ => Ok true
  end.

(** one item == one Python value; [nested] is how a nested list compares (and
    whether it can be compared at all: it raises before it looks at the type of
    the other operand) *)
Definition item_eq (nested : option (bool * (lobj -> list pyv -> res bool))) (x : item) (y : pyv) : res bool :=
  match x, y with
  | INone, YNone => Ok true
  | IBool b, YNum z => Ok (Z.b2z b =? z)
  | IInt v, YNum z => Ok (v =? z)
  | IBool b, YFloat f => Ok (FloatBits.num_eqb (FloatBits.num_int (Z.b2z b)) (FloatBits.num_float f))
  | IInt v, YFloat f => Ok (FloatBits.num_eqb (FloatBits.num_int v) (FloatBits.num_float f))
  | IFloat dbl v, YNum z => Ok (FloatBits.num_eqb (FloatBits.num_float (if dbl then v else FloatBits.to64 v)) (FloatBits.num_int z))
  | IFloat dbl v, YFloat f => Ok (FloatBits.num_eqb (FloatBits.num_float (if dbl then v else FloatBits.to64 v)) (FloatBits.num_float f))
  | IBytes None, YNone => Ok true
  | IBytes (Some b), YBytes c => Ok (if list_eq_dec Byte.byte_eq_dec b c then true else false)
  | IList l, YList zs => match nested with Some (_, eq) => eq l zs | None => Ok false end
  | IList _, _ => match nested with Some (false, _) => Err TypeError | _ => Ok false end
  | _, _ => Ok false
  end.

(** list.py:87-93 (_equals), other is a Python list; [t] is the item type of
    [l]. [n] bounds the number of items of an iteration. *)
Fixpoint py_equals (t : itype) (n : nat) (l : lobj) (ys : list pyv) : res bool :=
  if negb (can_compare t) then Err TypeError
  else
    do xs <- l_iter n l 0;
    if negb (blen xs =? blen ys) then Ok false
    else eq_items (item_eq (match t with ITList inner => Some (can_compare inner, py_equals inner n) | _ => None end)) xs ys.

(** Specification: [pyeq a b]: Python's ==. Numbers are equal when they are
    the same number, whatever their type; nan is equal to nothing. *)
Definition quantity (y : pyv) (v : Z) : Prop :=
  match y with
  | YNum z => v = z * 2 ^ 1074
  | YFloat b => FloatSpec.finite FloatBits.double b /\ v = FloatSpec.fvalue FloatBits.double b
  | _ => False
  end.
Definition infinity (negative : bool) (y : pyv) : Prop :=
  match y with
  | YFloat b => FloatSpec.infinite FloatBits.double b /\ FloatBits.neg FloatBits.double b = negative
  | _ => False
  end.
Inductive pyeq : pyv -> pyv -> Prop :=
| pe_none : pyeq YNone YNone
| pe_num : forall a b v, quantity a v -> quantity b v -> pyeq a b
| pe_inf : forall a b n, infinity n a -> infinity n b -> pyeq a b
| pe_bytes : forall b, pyeq (YBytes b) (YBytes b)
| pe_list : forall a b, Forall2 pyeq a b -> pyeq (YList a) (YList b).

(** no floats in it *)
Fixpoint no_floats (y : pyv) : Prop :=
  match y with
  | YFloat _ => False
  | YList l => (fix all l := match l with [] => True | x :: r => no_floats x /\ all r end) l
  | _ => True
  end.

(** Specification: the Python list that a list value stands for *)
Fixpoint all_some {A} (l : list (option A)) : option (list A) :=
  match l with
  | [] => Some []
  | x :: r => match x, all_some r with Some y, Some ys => Some (y :: ys) | _, _ => None end
  end.
Fixpoint as_py (t : itype) (v : value) : option (list pyv) :=
  match t with
  | ITStruct _ _ => None
  | _ =>
    all_some (map (fun i =>
      match v_item t v (Z.of_nat i) with
      | Some VINone => Some YNone
      | Some (VIBool b) => Some (YNum (Z.b2z b))
      | Some (VIInt z) => Some (YNum z)
      | Some (VIFloat dbl z) => Some (YFloat (if dbl then z else FloatBits.to64 z))
      | Some (VIBytes (Ok (Some b))) => Some (YBytes b)
      | Some (VIBytes (Ok None)) => Some YNone
      | Some (VIList v') => match t with ITList inner => option_map YList (as_py inner v') | _ => None end
      | _ => None
      end) (seq 0 (Z.to_nat (vcount v))))
  end.

Lemma all_some_Forall2 {A} (l : list (option A)) : forall r, all_some l = Some r -> Forall2 (fun x y => x = Some y) l r.
Proof.
  induction l as [|x l IH]; intros r H; cbn [all_some] in H; [injection H as <-; constructor|].
  destruct x as [x|]; [|discriminate]. destruct (all_some l) as [ys|]; [|discriminate]. injection H as <-.
  constructor; [reflexivity|apply IH; reflexivity].
Qed.

Lemma eq_items_spec (eqn : nat -> item -> pyv -> res bool) xs ps :
  Forall2 (fun x p => exists n0, forall n, (n0 <= n)%nat -> forall y, exists b, eqn n x y = Ok b /\ (b = true <-> pyeq p y)) xs ps ->
  exists n0, forall n, (n0 <= n)%nat -> forall ys, blen ys = blen xs ->
    exists b, eq_items (eqn n) xs ys = Ok b /\ (b = true <-> Forall2 pyeq ps ys).
Proof.
  induction 1 as [|x p xs ps [n1 H1] H IH].
  - exists 0%nat. intros n _ [|y ys] L; [|rewrite blen_cons in L; change (blen (@nil item)) with 0 in L; pose proof (blen_nonneg ys); lia].
    exists true. cbn. split; [reflexivity|]. split; [constructor|reflexivity].
  - destruct IH as [n2 IH]. exists (Nat.max n1 n2). intros n Hn [|y ys] L.
    { rewrite blen_cons in L. change (blen (@nil pyv)) with 0 in L. pose proof (blen_nonneg xs). lia. }
    rewrite !blen_cons in L. cbn [eq_items].
    destruct (H1 n ltac:(lia) y) as (b & E & B). rewrite E. cbn [bind]. destruct b.
    + destruct (IH n ltac:(lia) ys ltac:(lia)) as (c & F & C). exists c. split; [exact F|].
      rewrite C. pose proof (proj1 B eq_refl). split; [constructor; assumption|]. intros X; now inversion X.
    + exists false. split; [reflexivity|]. split; [discriminate|]. intros X. apply B. now inversion X.
Qed.

(** one item *)
Definition item_py (t : itype) (rec : itype -> value -> option (list pyv)) (y : vitem) : option pyv :=
  match y with
  | VINone => Some YNone
  | VIBool b => Some (YNum (Z.b2z b))
  | VIInt z => Some (YNum z)
  | VIFloat dbl z => Some (YFloat (if dbl then z else FloatBits.to64 z))
  | VIBytes (Ok (Some b)) => Some (YBytes b)
  | VIBytes (Ok None) => Some YNone
  | VIList v' => match t with ITList inner => option_map YList (rec inner v') | _ => None end
  | _ => None
  end.
Lemma as_py_items t v ps : 0 <= vcount v -> as_py t v = Some ps ->
  can_compare t = true /\ exists ys, blen ys = vcount v /\
    (forall i y, nth_error ys i = Some y -> v_item t v (Z.of_nat i) = Some y) /\
    Forall2 (fun y p => item_py t as_py y = Some p) ys ps.
Proof.
  intros P H. assert (CC : can_compare t = true) by (destruct t; [reflexivity..|discriminate H| |]; reflexivity).
  split; [exact CC|].
  assert (A : all_some (map (fun i => match v_item t v (Z.of_nat i) with Some y => item_py t as_py y | None => None end)
     (seq 0 (Z.to_nat (vcount v)))) = Some ps).
  { rewrite <- H. destruct t; try discriminate; cbn [as_py]; f_equal; apply map_ext; intros i;
      (destruct (v_item _ v (Z.of_nat i)) as [[| | | | |[[|]|]|]|]; reflexivity). }
  clear H. apply all_some_Forall2 in A.
  assert (G : forall k m ps', Forall2 (fun x y => x = Some y) (map (fun i => match v_item t v (Z.of_nat i) with Some y => item_py t as_py y | None => None end) (seq k m)) ps' ->
     exists ys, length ys = m /\ (forall i y, nth_error ys i = Some y -> v_item t v (Z.of_nat (k + i)) = Some y) /\
       Forall2 (fun y p => item_py t as_py y = Some p) ys ps').
  { intros k m; revert k. induction m as [|m IH]; intros k ps' F; cbn [seq map] in F.
    - inversion F; subst. exists []. split; [reflexivity|]. split; [intros [|i] y N; discriminate|constructor].
    - inversion F as [|? p ? ps2 F1 F2]; subst. destruct (v_item t v (Z.of_nat k)) as [y|] eqn:V; [|discriminate].
      destruct (IH (S k) ps2 F2) as (ys & L & N & Q). exists (y :: ys). split; [cbn; lia|]. split.
      + intros [|i] z E; cbn [nth_error] in E; [injection E as <-; rewrite Nat.add_0_r; exact V|].
        rewrite <- Nat.add_succ_comm. apply N, E.
      + constructor; assumption. }
  destruct (G _ _ _ A) as (ys & L & N & Q). exists ys. unfold blen. split; [lia|]. split; [exact N|exact Q].
Qed.

Lemma py_equals_eq t n l ys : can_compare t = true -> py_equals t n l ys =
    do xs <- l_iter n l 0;
    if negb (blen xs =? blen ys) then Ok false
    else eq_items (item_eq (match t with ITList inner => Some (can_compare inner, py_equals inner n) | _ => None end)) xs ys.
Proof. intros H. destruct t; try discriminate; reflexivity. Qed.

Definition eq_spec (t : itype) : Prop := forall l v ps, lobj_den l v -> l_it l = t -> as_py t v = Some ps ->
  exists n0, forall n, (n0 <= n)%nat -> forall ys, exists b, py_equals t n l ys = Ok b /\ (b = true <-> Forall2 pyeq ps ys).

(** numbers *)
Lemma quantity_num z v : quantity (YNum z) v <-> FloatBits.num_int z = FloatBits.NFin v.
Proof.
  unfold FloatBits.num_int. change (FloatBits.fu FloatBits.double) with 1074. cbn [quantity]. generalize (2 ^ 1074). intros k.
  split; [intros ->; reflexivity|]. intros E. injection E as <-. reflexivity.
Qed.
Lemma quantity_flt b v : quantity (YFloat b) v <-> FloatBits.num_float b = FloatBits.NFin v.
Proof.
  cbn [quantity]. rewrite FloatFacts.fvalue_double. unfold FloatBits.num_float, FloatSpec.finite.
  change (FloatBits.fp FloatBits.double) with 53.
  set (k := FloatBits.body FloatBits.double b). set (m := FloatBits.mag 53 k). clearbody m. set (i := FloatBits.fi FloatBits.double). clearbody k i.
  destruct (Z.ltb_spec i k); [split; [lia|discriminate]|]. destruct (Z.eqb_spec k i); [split; [lia|discriminate]|].
  split.
  - intros (_ & ->). f_equal. destruct (FloatBits.neg _ b); lia.
  - intros E. injection E as <-. split; [lia|]. destruct (FloatBits.neg _ b); lia.
Qed.
Lemma infinity_flt n b : infinity n (YFloat b) <-> FloatBits.num_float b = FloatBits.NInf n.
Proof.
  cbn [infinity]. unfold FloatBits.num_float, FloatSpec.infinite.
  set (k := FloatBits.body FloatBits.double b). set (i := FloatBits.fi FloatBits.double). clearbody k i.
  destruct (Z.ltb_spec i k); [split; [lia|discriminate]|]. destruct (Z.eqb_spec k i); [|split; [lia|discriminate]].
  split; [intros (_ & ->); reflexivity|]. intros E. injection E as <-. auto.
Qed.
Definition number (y : pyv) : option FloatBits.num :=
  match y with YNum z => Some (FloatBits.num_int z) | YFloat b => Some (FloatBits.num_float b) | _ => None end.
Lemma quantity_number y v : quantity y v <-> number y = Some (FloatBits.NFin v).
Proof.
  destruct y; cbn [number]; try (split; [contradiction|discriminate]).
  - rewrite quantity_num. split; [intros ->; reflexivity|]. intros E. congruence.
  - rewrite quantity_flt. split; [intros ->; reflexivity|]. intros E. congruence.
Qed.
Lemma infinity_number n y : infinity n y <-> number y = Some (FloatBits.NInf n).
Proof.
  destruct y; cbn [number]; try (split; [contradiction|unfold FloatBits.num_int; discriminate]).
  - rewrite infinity_flt. split; [intros ->; reflexivity|]. intros E. congruence.
Qed.
Lemma number_eq a b x y : number a = Some x -> number b = Some y -> (FloatBits.num_eqb x y = true <-> pyeq a b).
Proof.
  intros A B. split.
  - destruct x as [v|n|], y as [w|m|]; cbn [FloatBits.num_eqb]; try discriminate; intros E.
    + apply Z.eqb_eq in E. subst w. apply pe_num with v; apply quantity_number; assumption.
    + apply eqb_prop in E. subst m. apply pe_inf with n; apply infinity_number; assumption.
  - intros E. destruct E as [|a b v Qa Qb|a b n Qa Qb|c|l l' F]; try discriminate A.
    + apply quantity_number in Qa, Qb. assert (x = FloatBits.NFin v) by congruence. assert (y = FloatBits.NFin v) by congruence.
      subst. apply Z.eqb_refl.
    + apply infinity_number in Qa, Qb. assert (x = FloatBits.NInf n) by congruence. assert (y = FloatBits.NInf n) by congruence.
      subst. apply eqb_reflx.
Qed.
Lemma num_num v z : (v =? z) = true <-> pyeq (YNum v) (YNum z).
Proof.
  rewrite <- (number_eq (YNum v) (YNum z) _ _ eq_refl eq_refl). unfold FloatBits.num_int, FloatBits.num_eqb.
  rewrite !Z.eqb_eq. assert (0 < 2 ^ FloatBits.fu FloatBits.double) by (apply Z.pow_pos_nonneg; [lia|vm_compute; congruence]). nia.
Qed.
Lemma num_flt v f : FloatBits.num_eqb (FloatBits.num_int v) (FloatBits.num_float f) = true <-> pyeq (YNum v) (YFloat f).
Proof. apply number_eq; reflexivity. Qed.
Lemma flt_num f v : FloatBits.num_eqb (FloatBits.num_float f) (FloatBits.num_int v) = true <-> pyeq (YFloat f) (YNum v).
Proof. apply number_eq; reflexivity. Qed.
Lemma flt_flt f g : FloatBits.num_eqb (FloatBits.num_float f) (FloatBits.num_float g) = true <-> pyeq (YFloat f) (YFloat g).
Proof. apply number_eq; reflexivity. Qed.
Lemma pyeq_plain1 : forall x y, no_floats x -> no_floats y -> (pyeq x y <-> x = y).
Proof.
  fix IH 1. intros x y NX NY. destruct x as [|z|f|b|l]; destruct y as [|z'|f'|b'|l']; try contradiction;
    try (split; [intros H; inversion H; subst; cbn [quantity infinity] in *; tauto|discriminate]).
  - split; [reflexivity|constructor].
  - rewrite <- num_num, Z.eqb_eq. split; congruence.
  - split; [intros H; inversion H; subst; cbn [quantity infinity] in *; tauto|intros ->; constructor].
  - assert (G : Forall2 pyeq l l' <-> l = l').
    { cbn [no_floats] in NX, NY. revert l' NX NY. induction l as [|a l IHl]; intros [|a' l'] NX NY.
      - split; [reflexivity|constructor].
      - split; [intros H; inversion H|discriminate].
      - split; [intros H; inversion H|discriminate].
      - destruct NX as (N1 & N2), NY as (N1' & N2'). destruct (IHl l' N2 N2') as (G1 & G2). destruct (IH a a' N1 N1') as (A1 & A2). split.
        + intros H. inversion H; subst. f_equal; [apply A1|apply G1]; assumption.
        + intros H. injection H as E1 E2. constructor; [apply A2, E1|apply G2, E2]. }
    split; [intros H; inversion H; subst; cbn [quantity infinity] in *; try tauto; f_equal; apply G; assumption|].
    intros H. injection H as ->. apply pe_list, G. reflexivity.
Qed.
Lemma pyeq_plain xs ys : Forall no_floats xs -> Forall no_floats ys -> (Forall2 pyeq xs ys <-> xs = ys).
Proof.
  intros HX. revert ys. induction HX as [|x xs H HX IH]; intros ys HY; inversion HY as [|y ys' H' HY']; subst.
  - split; [reflexivity|constructor].
  - split; [intros F; inversion F|discriminate].
  - split; [intros F; inversion F|discriminate].
  - destruct (IH ys' HY') as (G1 & G2). destruct (pyeq_plain1 x y H H') as (A1 & A2). split.
    + intros F. inversion F; subst. f_equal; [apply A1|apply G1]; assumption.
    + intros E. injection E as E1 E2. constructor; [apply A2, E1|apply G2, E2].
Qed.
Ltac noeq X := inversion X; subst; cbn [quantity infinity] in *; try tauto; try discriminate.

Lemma item_eq_spec t s x y p : (forall inner, t = ITList inner -> eq_spec inner) ->
  item_den s t x y -> item_py t as_py y = Some p ->
  exists n0, forall n, (n0 <= n)%nat -> forall z, exists b,
    item_eq (match t with ITList inner => Some (can_compare inner, py_equals inner n) | _ => None end) x z = Ok b /\ (b = true <-> pyeq p z).
Proof.
  intros IH D E.
  destruct x as [|bb|z0|dbl z0|o|ob|l'], y as [|b'|z'|dbl' z'|d vs|[ob'|]|v']; try contradiction D; cbn [item_py item_den] in *; try discriminate E.
  - injection E as <-. exists 0%nat. intros n _ [| | | |]; eexists; (split; [reflexivity|]); split;
      try (intros _; constructor); try discriminate; try reflexivity; intros X; noeq X.
  - subst b'. injection E as <-. exists 0%nat. intros n _ [|z|f| |]; eexists; (split; [reflexivity|]);
      try (split; [discriminate|intros X; noeq X]); [apply num_num|apply num_flt].
  - subst z'. injection E as <-. exists 0%nat. intros n _ [|z|f| |]; eexists; (split; [reflexivity|]);
      try (split; [discriminate|intros X; noeq X]); [apply num_num|apply num_flt].
  - destruct D as (<- & <-). injection E as <-. exists 0%nat. intros n _ [|z|f| |]; eexists; (split; [reflexivity|]);
      try (split; [discriminate|intros X; noeq X]); [apply flt_num|apply flt_flt].
  - subst ob'. destruct ob as [b0|]; injection E as <-; exists 0%nat; intros n _ [|z|f|c|];
      eexists; (split; [reflexivity|]); try (split; [discriminate|intros X; noeq X]); try (split; [constructor|reflexivity]).
    destruct (list_eq_dec _ b0 c) as [<-|NE]; split; try discriminate; try constructor. intros X. destruct NE. noeq X.
  - destruct D as (D & _ & T). destruct t as [| | | | | |inner]; try discriminate E. cbn [inner_type] in T.
    destruct (as_py inner v') as [ps|] eqn:A; [|discriminate]. injection E as <-.
    assert (CC : can_compare inner = true) by (destruct inner; [reflexivity..|discriminate A| |]; reflexivity).
    destruct (IH _ eq_refl l' v' ps D T A) as [n0 H]. exists n0. intros n Hn [| | | |zs]; cbn [item_eq]; rewrite ?CC.
    1-4: eexists; (split; [reflexivity|]); split; [discriminate|intros X; noeq X].
    destruct (H n Hn zs) as (b & B1 & B2). exists b. split; [exact B1|]. rewrite B2. split; [apply pe_list|intros X; noeq X; assumption].
Qed.

Lemma Forall2_len {A B} (R : A -> B -> Prop) l l' : Forall2 R l l' -> length l = length l'.
Proof. induction 1; cbn; congruence. Qed.

Lemma py_step t : (forall inner, t = ITList inner -> eq_spec inner) -> eq_spec t.
Proof.
  intros IH l v ps L T A.
  assert (P : 0 <= vcount v).
  { pose proof (lobj_den_attrs _ _ L) as [C Q]; destruct v; cbn [vcount] in *; try apply blen_nonneg; try lia. }
  destruct (as_py_items _ _ _ P A) as (CC & vys & LY & NY & FY).
  destruct (items_value l v vys L LY) as (xs & IA & FX).
  { intros i y N; split; [rewrite T; apply NY, N|].
    assert (G : exists p, item_py t as_py y = Some p).
    { clear - FY N. revert i N. induction FY as [|a b la lb Hab F IH]; intros [|i] N; try discriminate; cbn [nth_error] in N.
      - injection N as <-. eauto.
      - eauto. }
    destruct G as [p E]. destruct y as [| | | | |[|]|]; try exact I; discriminate E. }
  rewrite T in FX.
  destruct (eq_items_spec (fun n => item_eq (match t with ITList inner => Some (can_compare inner, py_equals inner n) | _ => None end)) xs ps) as [n1 H1].
  { clear - FX FY IH. revert ps FY. induction FX as [|x y xs ys Hxy F IHF]; intros ps FY; inversion FY; subst; constructor.
    - eapply item_eq_spec; eassumption.
    - apply IHF. assumption. }
  exists (Nat.max n1 (S (length xs))). intros n Hn ys. rewrite py_equals_eq by exact CC.
  rewrite (iter_list l xs n IA) by lia. cbn [bind].
  destruct (Z.eqb_spec (blen xs) (blen ys)) as [E|E]; cbn [negb].
  - apply H1; [lia|congruence].
  - exists false. split; [reflexivity|]. split; [discriminate|]. intros X. destruct E.
    unfold blen. rewrite (Forall2_len _ _ _ FX), (Forall2_len _ _ _ FY), (Forall2_len _ _ _ X). reflexivity.
Qed.

Theorem py_equals_spec t : eq_spec t.
Proof.
  induction t as [| |f|dbl|ds ps0|add|t IH]; apply py_step; intros inner E; try discriminate E. injection E as <-. exact IH.
Qed.

Lemma canon_end l v fuel : lobj_den l v -> fits (l_it l) v -> packed v -> limv v ->
  at_ (l_seg l) (l_off l) (content v) -> l_off l mod 8 = 0 -> blen (content v) <= 2 ^ 32 -> (vdepth v <= fuel)%nat ->
  exists e, l_get_end fuel l = Ok e /\ e <> -1.
Proof.
  intros L F P LV AT A1 Hlen Hf. destruct (self_den _ _ L F) as (D & T & C).
  assert (W : wfv v) by (eapply den_wf; exact D).
  assert (NN : v <> VNull) by (intros ->; destruct (l_it l); contradiction).
  destruct (lobj_den_attrs _ _ L) as [QC Q].
  assert (PW : ptr_word v 0 = w_list 0 (l_stag l) (l_count l)).
  { destruct (fits_form _ _ F) as [(tg & c & b & ->)|(vs & ->)]; cbn [ptr_word vcount] in *.
    - destruct Q as (_ & _ & _ & _ & -> & _). rewrite QC. reflexivity.
    - destruct Q as (_ & _ & -> & _). rewrite QC. reflexivity. }
  assert (CC : l_count l < 2 ^ 28).
  { apply vall_root in LV. rewrite QC. destruct (fits_form _ _ F) as [(tg & c & b & ->)|(vs & ->)]; cbn [lim1 vcount] in *; lia. }
  exists (l_off l + blen (content v)). rewrite (l_get_end_eq _ _ _ L F).
  rewrite (endof_enc v W P (l_seg l) _ _ (l_off l) 0 fuel NN); try lia; try assumption.
  - split; [reflexivity|]. destruct AT as (AT0 & _). pose proof (blen_nonneg (content v)). lia.
  - rewrite PW. split; [unfold w_list; lia|reflexivity].
Qed.

Lemma packed_noslack v : packed v -> noslack v.
Proof.
  unfold packed, noslack. apply vall_impl. intros x. destruct x; cbn; auto.
Qed.

(** C37, both directions: lists in the canonical layout *)
Lemma equals_iff a b va vb fuel :
  lobj_den a va -> lobj_den b vb -> l_it b = l_it a -> fits (l_it a) va -> fits (l_it b) vb ->
  packed va -> packed vb -> limv va -> limv vb ->
  at_ (l_seg a) (l_off a) (content va) -> at_ (l_seg b) (l_off b) (content vb) ->
  l_off a mod 8 = 0 -> l_off b mod 8 = 0 -> slen (l_seg a) mod 8 = 0 -> slen (l_seg b) mod 8 = 0 ->
  blen (content va) <= 2 ^ 32 -> blen (content vb) <= 2 ^ 32 ->
  (vdepth va <= fuel)%nat -> (vdepth vb <= fuel)%nat ->
  (l_equals fuel true a b = Ok true /\ va = vb) \/ (l_equals fuel true a b = Ok false /\ va <> vb).
Proof.
  intros LA LB IT FA FB PA PB MA MB AA AB A1 B1 A2 B2 SA SB HA HB.
  pose proof (canon_slice a va fuel LA FA PA MA AA A1 SA HA) as XA.
  pose proof (canon_slice b vb fuel LB FB PB MB AB B1 SB HB) as XB.
  destruct (canon_end a va fuel LA FA PA MA AA A1 SA HA) as (ea & EA & NA).
  destruct (canon_end b vb fuel LB FB PB MB AB B1 SB HB) as (eb & EB & NB).
  assert (CC : can_compare (l_it a) = true) by (destruct (l_it a); cbn in *; try reflexivity; contradiction).
  destruct (l_equals fuel true a b) as [[|]|e] eqn:E.
  - left. split; [reflexivity|].
    apply (equals_sound a b va vb fuel true ea eb LA LB FA FB); try assumption. apply packed_noslack, PA.
  - right. split; [reflexivity|]. intros <-.
    rewrite (equals_complete a b va fuel) in E by assumption. discriminate.
  - exfalso. unfold l_equals in E. rewrite CC, XA, XB in E. cbn [negb bind] in E.
    destruct ((l_count a =? l_count b) && same_type true (l_it a) (l_it b)); discriminate.
Qed.

(** C44: behind far pointers *)
Lemma ap_far o d vs k p : obj_den o d vs -> 0 <= k < o_ps o ->
  word_at (o_seg o) (o_ptrs o + 8 * k) = Some p -> p_kind p = 2 ->
  ap_is_struct o (8 * k) = Ok false /\ ap_is_list o (8 * k) = Ok false /\ ap_is_text o (8 * k) = Ok false.
Proof.
  intros O Hk W K. unfold ap_is_struct, ap_is_list, ap_is_text, o_read_fast_ptr.
  destruct (Z.leb_spec (o_ps o * 8) (8 * k)); [lia|]. rewrite (proj2 (read_ptr_word _ _ _) W). cbn [bind].
  rewrite kind_spec, K. auto.
Qed.

(** C44: the accessors *)
Lemma ap_accessors o d vs k : obj_den o d vs -> 0 <= k ->
  match v_ptr vs k with
  | VNull => ap_as_struct o (8 * k) = Ok None /\ ap_as_data o (8 * k) = Ok None /\ ap_as_text_bytes o (8 * k) = Ok None /\
             (forall t, ap_as_list o (8 * k) t = Ok None) /\
             (forall fuel fp, ap_dumps fuel o (8 * k) fp = Err AttributeError)
  | VStruct d' vs' =>
      (exists o', ap_as_struct o (8 * k) = Ok (Some o') /\ obj_den o' d' vs' /\
        (forall fuel fp, ap_dumps fuel o (8 * k) fp = dumps fuel o' fp)) /\
      (forall t, ap_as_list o (8 * k) t = Err AssertionError) /\
      ap_as_data o (8 * k) = Err AssertionError /\ ap_as_text_bytes o (8 * k) = Err AssertionError
  | v => ap_as_struct o (8 * k) = Err AssertionError /\
         (forall fuel fp, ap_dumps fuel o (8 * k) fp = Err AssertionError) /\
         (forall t, exists l, ap_as_list o (8 * k) t = Ok (Some l) /\ lobj_den l v /\ l_it l = t) /\
         match v with
         | VList t c b =>
             if t =? 2
             then ap_as_data o (8 * k) = Ok (Some b) /\
                  (0 < c -> ap_as_text_bytes o (8 * k) = Ok (Some (removelast b)))
             else ap_as_data o (8 * k) = Err AssertionError /\ ap_as_text_bytes o (8 * k) = Err AssertionError
         | _ => ap_as_data o (8 * k) = Err AssertionError /\ ap_as_text_bytes o (8 * k) = Err AssertionError
         end
  end.
Proof.
  intros O Hk.
  pose proof (o_read_struct_spec o d vs k O Hk) as S. pose proof (fun t => o_read_list_spec o d vs k t O Hk) as L.
  pose proof (fun dflt add r => o_read_data_spec o d vs k dflt add r O Hk) as D.
  unfold ap_as_struct, ap_as_list, ap_as_data, ap_as_text_bytes, ap_dumps, ap_as_struct.
  assert (W : wfv (v_ptr vs k)).
  { pose proof (obj_wf _ _ _ O) as W. apply (proj1 (vall_struct _ _ _)) in W. destruct W as [_ W].
    unfold v_ptr. destruct (nth_in_or_default (Z.to_nat k) vs VNull) as [I|E]; [|rewrite E; split; exact I].
    rewrite Forall_forall in W. apply W, I. }
  destruct (v_ptr vs k) as [|d' vs'|t c b|ws|ds ps items sl] eqn:V; cbn [vbytes] in D.
  - rewrite S. cbn [bind]. repeat split; auto.
  - destruct S as (o' & S1 & S2 & _). split; [exists o'; rewrite S1; cbn [bind]; auto|]. repeat split; auto.
  - rewrite S. cbn [bind]. do 2 (split; [auto|]). split.
    + intros t'. destruct (L t') as (l & L1 & L2 & _ & L3). exists l. auto.
    + destruct (Z.eqb_spec t 2) as [->|N].
      2:{ apply Z.eqb_neq in N. rewrite ?N in *. split; apply D; reflexivity. }
      apply vall_root in W. cbn [wf1] in W.
      assert (B : blen b = c) by (destruct W as (W1 & W2 & W3); unfold list_bytes in W3; cbn [Z.eqb Pos.eqb] in W3; lia).
      split.
      * rewrite (D None 0 (Ok (Some (sub b 0 (c + 0))))). { rewrite Z.add_0_r, <- B, sub_all. reflexivity. }
        replace ((0 <=? c + 0) && (0 <=? 0)) with true by (symmetry; pose proof (blen_nonneg b); lia). reflexivity.
      * intros Hc. rewrite (D None (-1) (Ok (Some (sub b 0 (c + -1))))).
        2:{ replace ((0 <=? c + -1) && (-1 <=? 0)) with true by (symmetry; lia). reflexivity. }
        do 2 f_equal. destruct (exists_last (l := b)) as (b' & x & E). { intros ->. change (blen (@nil byte)) with 0 in B. lia. }
        rewrite E, removelast_last, sub_app1.
        -- rewrite <- B, E, blen_app. change (blen [x]) with 1. replace (blen b' + 1 + -1) with (blen b') by lia. apply sub_all.
        -- lia.
        -- lia.
        -- rewrite <- B, E, blen_app. change (blen [x]) with 1. lia.
  - rewrite S. cbn [bind]. do 2 (split; [auto|]). split; [|split; apply D; reflexivity].
    intros t'. destruct (L t') as (l & L1 & L2 & _ & L3). exists l. auto.
  - rewrite S. cbn [bind]. do 2 (split; [auto|]). split; [|split; apply D; reflexivity].
    intros t'. destruct (L t') as (l & L1 & L2 & _ & L3). exists l. auto.
Qed.
