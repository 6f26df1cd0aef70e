(** Facts about the conversion of names. *)
From Verif Require Import Base Case.

Lemma inserted_refl s : inserted s s.
Proof. induction s; constructor; assumption. Qed.

Lemma inserted_trans a b c : inserted a b -> inserted b c -> inserted a c.
Proof.
  intros H1 H2. revert a H1. induction H2; intros a' H1.
  - exact H1.
  - inversion H1; subst; [apply ins_keep|apply ins_new]; auto.
  - apply ins_new. auto.
Qed.

Lemma inserted_lower a b : inserted a b -> inserted (lower a) (lower b).
Proof.
  induction 1; cbn [lower map].
  - constructor.
  - constructor. assumption.
  - change (lower1 underscore) with underscore. constructor. assumption.
Qed.

Lemma sub_A_inserted s : forall k, inserted s (sub_A k s) .
Proof.
  assert (G : forall n s, (length s <= n)%nat -> forall k, inserted s (sub_A k s)).
  { induction n as [|n IH]; intros [|c r] L k; cbn [length] in L; try lia; try constructor.
    cbn [sub_A]. destruct (k && is_lower c).
    { constructor. apply IH. lia. }
    destruct r as [|u [|l r']].
    - constructor. constructor.
    - constructor. apply IH. cbn in *. lia.
    - destruct (negb (c =? 10) && is_upper u && is_lower l).
      + apply ins_keep, ins_new, ins_keep. apply IH. cbn in *. lia.
      + apply ins_keep. apply IH. cbn in *. lia. }
  intros. apply (G (length s)). lia.
Qed.

Lemma sub_B_inserted s : inserted s (sub_B s).
Proof.
  assert (G : forall n s, (length s <= n)%nat -> inserted s (sub_B s)).
  { induction n as [|n IH]; intros [|c r] L; cbn [length] in L; try lia; try constructor.
    cbn [sub_B]. destruct r as [|u r'].
    - apply inserted_refl.
    - destruct ((is_lower c || is_digit c) && is_upper u).
      + apply ins_keep, ins_new, ins_keep. apply IH. cbn in *. lia.
      + apply ins_keep. apply IH. lia. }
  apply (G (length s)). lia.
Qed.

Lemma camel_inserted s : inserted (lower s) (from_camel_case s).
Proof.
  apply inserted_lower. eapply inserted_trans; [apply sub_A_inserted|apply sub_B_inserted].
Qed.

Lemma inserted_squeeze a b : inserted a b -> squeeze a = squeeze b.
Proof.
  induction 1; cbn [squeeze filter] in *.
  - reflexivity.
  - destruct (negb (c =? underscore)); unfold squeeze in *; congruence.
  - exact IHinserted.
Qed.

(** the result has no upper case letter, so a second conversion changes nothing *)
Lemma lower_no_upper s : Forall (fun c => is_upper c = false) (lower s).
Proof.
  apply Forall_map. apply Forall_forall. intros c _. unfold lower1.
  destruct (is_upper c) eqn:E; [|exact E]. unfold is_upper in *. lia.
Qed.

Lemma sub_A_id s : Forall (fun c => is_upper c = false) s -> forall k, sub_A k s = s.
Proof.
  induction 1 as [|c r Hc F IH]; intros k; [reflexivity|].
  cbn [sub_A]. destruct (k && is_lower c); [now rewrite IH|].
  destruct r as [|u [|l r']]; try (now rewrite IH).
  inversion_clear F as [|? ? Hu _]. rewrite Hu, andb_false_r. cbn [andb]. now rewrite IH.
Qed.

Lemma sub_B_id s : Forall (fun c => is_upper c = false) s -> sub_B s = s.
Proof.
  induction 1 as [|c r Hc F IH]; [reflexivity|].
  cbn [sub_B]. destruct r as [|u r']; [reflexivity|].
  inversion_clear F as [|? ? Hu _]. rewrite Hu, andb_false_r. now rewrite IH.
Qed.

Lemma lower_id s : Forall (fun c => is_upper c = false) s -> lower s = s.
Proof.
  induction 1 as [|c r Hc F IH]; [reflexivity|]. cbn [lower map]. unfold lower1 at 1. rewrite Hc.
  unfold lower in IH. now rewrite IH.
Qed.

Lemma camel_no_upper s : Forall (fun c => is_upper c = false) (from_camel_case s).
Proof. apply lower_no_upper. Qed.

Lemma camel_fix s : Forall (fun c => is_upper c = false) s -> from_camel_case s = s.
Proof. intros F. unfold from_camel_case. rewrite sub_A_id, sub_B_id, lower_id; auto. Qed.

Lemma camel_idem s : from_camel_case (from_camel_case s) = from_camel_case s.
Proof. apply camel_fix, camel_no_upper. Qed.

Lemma camel_distinct a b : squeeze (lower a) <> squeeze (lower b) -> from_camel_case a <> from_camel_case b.
Proof.
  intros N E. apply N. rewrite (inserted_squeeze _ _ (camel_inserted a)), (inserted_squeeze _ _ (camel_inserted b)). now rewrite E.
Qed.

(** The usual case: letters and digits, never two capitals in a row. *)
Lemma sub_B_cons c X : sub_B (c :: X) =
  c :: (if (is_lower c || is_digit c) && match X with u :: _ => is_upper u | [] => false end
        then [underscore] else []) ++ sub_B X.
Proof.
  destruct X as [|u Y]; cbn [sub_B].
  - now rewrite andb_false_r.
  - destruct ((is_lower c || is_digit c) && is_upper u) eqn:E; [|reflexivity].
    apply andb_true_iff in E as [_ U]. cbn [app].
    assert (L : (is_lower u || is_digit u) = false) by (unfold is_lower, is_digit, is_upper in *; lia).
    destruct Y as [|v Z']; [reflexivity|]. rewrite L. reflexivity.
Qed.

(** The specification with the characters of the model *)
Lemma capital_is c : capital c = is_upper c.
Proof.
  unfold is_upper. destruct (Z.leb_spec 65 c), (Z.leb_spec c 90); cbn [andb]; [|apply not_true_is_false|apply not_true_is_false|lia].
  - assert (c = 65 \/ c = 66 \/ c = 67 \/ c = 68 \/ c = 69 \/ c = 70 \/ c = 71 \/ c = 72 \/ c = 73 \/ c = 74 \/ c = 75 \/ c = 76 \/ c = 77 \/
      c = 78 \/ c = 79 \/ c = 80 \/ c = 81 \/ c = 82 \/ c = 83 \/ c = 84 \/ c = 85 \/ c = 86 \/ c = 87 \/ c = 88 \/ c = 89 \/ c = 90) as D by lia.
    repeat (destruct D as [->|D]; [reflexivity|]). subst c. reflexivity.
  - unfold capital. intros E. apply existsb_exists in E as (x & J & E). apply Z.eqb_eq in E. subst x. cbn in J. lia.
  - unfold capital. intros E. apply existsb_exists in E as (x & J & E). apply Z.eqb_eq in E. subst x. cbn in J. lia.
Qed.
Lemma small_is c : small c = is_lower c.
Proof.
  assert (S : small c = capital (c - 32)).
  { unfold small, capital. generalize [65; 66; 67; 68; 69; 70; 71; 72; 73; 74; 75; 76; 77; 78; 79; 80; 81; 82; 83; 84; 85; 86; 87; 88; 89; 90].
    induction l as [|x l IH]; [reflexivity|]. cbn [existsb]. rewrite IH. f_equal.
    destruct (Z.eqb_spec c (x + 32)), (Z.eqb_spec (c - 32) x); lia || reflexivity. }
  rewrite S, capital_is. unfold is_upper, is_lower.
  destruct (Z.leb_spec 65 (c - 32)), (Z.leb_spec (c - 32) 90), (Z.leb_spec 97 c), (Z.leb_spec c 122); reflexivity || lia.
Qed.
Lemma numeral_is c : numeral c = is_digit c.
Proof.
  unfold is_digit. destruct (Z.leb_spec 48 c), (Z.leb_spec c 57); cbn [andb]; [|apply not_true_is_false|apply not_true_is_false|lia].
  - assert (c = 48 \/ c = 49 \/ c = 50 \/ c = 51 \/ c = 52 \/ c = 53 \/ c = 54 \/ c = 55 \/ c = 56 \/ c = 57) as D by lia.
    repeat (destruct D as [->|D]; [reflexivity|]). subst c. reflexivity.
  - unfold numeral. intros E. apply existsb_exists in E as (x & J & E). apply Z.eqb_eq in E. subst x. cbn in J. lia.
  - unfold numeral. intros E. apply existsb_exists in E as (x & J & E). apply Z.eqb_eq in E. subst x. cbn in J. lia.
Qed.
Lemma to_small_is c : to_small c = lower1 c.
Proof. unfold to_small, lower1. now rewrite capital_is. Qed.
Fixpoint camel_simple_ (s : str) : Prop :=
  match s with
  | [] => True
  | c :: r =>
      match r with
      | [] => True
      | u :: _ => is_alnum c = true /\ (is_upper c = true -> is_upper u = false) /\ camel_simple_ r
      end
  end.
Fixpoint camel_words_ (s : str) : str :=
  match s with
  | [] => []
  | c :: r =>
      match r with
      | u :: _ => lower1 c :: (if is_upper u then [underscore] else []) ++ camel_words_ r
      | [] => [lower1 c]
      end
  end.
Definition splits_ (prev : option Z) (u : Z) (r : str) : bool :=
  match prev with
  | None => false
  | Some c => is_upper u && (is_lower c || is_digit c ||
                (negb (c =? 10) && match r with l :: _ => is_lower l | [] => false end))
  end.
Fixpoint snake_ (prev : option Z) (s : str) : str :=
  match s with
  | [] => []
  | u :: r => (if splits_ prev u r then [underscore] else []) ++ lower1 u :: snake_ (Some u) r
  end.
Lemma simple_is s : camel_simple s -> camel_simple_ s.
Proof.
  induction s as [|c [|u r] IH]; [auto|auto|]. intros (A & B & C). rewrite !capital_is in *. rewrite small_is, numeral_is in A.
  split; [exact A|]. split; [exact B|exact (IH C)].
Qed.
Lemma words_is s : camel_words s = camel_words_ s.
Proof.
  induction s as [|c [|u r] IH]; [reflexivity|cbn; now rewrite to_small_is|].
  cbn [camel_words camel_words_] in *. rewrite to_small_is, capital_is. now rewrite IH.
Qed.
Lemma splits_is p u r : splits p u r = splits_ p u r.
Proof. unfold splits, splits_. destruct p as [c|]; [|reflexivity]. rewrite capital_is, small_is, numeral_is. destruct r as [|l r]; [reflexivity|]. now rewrite small_is. Qed.
Lemma snake_is s : forall p, snake p s = snake_ p s.
Proof. induction s as [|u r IH]; intros p; [reflexivity|]. cbn [snake snake_]. now rewrite splits_is, to_small_is, IH. Qed.

Lemma camel_simple_B s : camel_simple_ s -> forall k,
  lower (sub_B (sub_A k s)) = camel_words_ s.
Proof.
  assert (G : forall n s, (length s <= n)%nat -> camel_simple_ s -> forall k, lower (sub_B (sub_A k s)) = camel_words_ s).
  { clear s. induction n as [|n IH]; intros [|c r] L C k; cbn [length] in L; try lia; try reflexivity.
    assert (HD : forall k0, match sub_A k0 r with u :: _ => is_upper u | [] => false end =
                            match r with u :: _ => is_upper u | [] => false end).
    { intros k0. destruct r as [|u r']; [reflexivity|]. cbn [sub_A].
      destruct (k0 && is_lower u); [reflexivity|]. destruct r' as [|v [|w r'']]; try reflexivity.
      destruct (negb (u =? 10) && is_upper v && is_lower w); reflexivity. }
    assert (Cr : camel_simple_ r) by (destruct r as [|u r']; [exact I|apply C]).
    assert (ST : forall k0, lower (sub_B (c :: sub_A k0 r)) = camel_words_ (c :: r)).
    { intros k0. rewrite sub_B_cons, HD. cbn [lower map camel_words_].
      fold (lower ((if (is_lower c || is_digit c) && match r with u :: _ => is_upper u | [] => false end
                    then [underscore] else []) ++ sub_B (sub_A k0 r))).
      unfold lower. rewrite map_app. fold (lower (sub_B (sub_A k0 r))). rewrite IH by (try lia; exact Cr).
      destruct r as [|u r'].
      - rewrite andb_false_r. reflexivity.
      - destruct C as (A1 & A2 & A3). destruct (is_upper u) eqn:U; [|now rewrite andb_false_r].
        rewrite andb_true_r.
        assert (B : (is_lower c || is_digit c) = true).
        { unfold is_alnum in A1. destruct (is_upper c); [now specialize (A2 eq_refl)|].
          destruct (is_lower c), (is_digit c); cbn in *; congruence. }
        rewrite B. reflexivity. }
    cbn [sub_A]. destruct (k && is_lower c); [apply ST|].
    destruct r as [|u [|l r']]; try apply ST.
    destruct (negb (c =? 10) && is_upper u && is_lower l) eqn:M; [|apply ST].
    apply andb_true_iff in M as [M Hl]. apply andb_true_iff in M as [_ Hu].
    rewrite (sub_B_cons c). change (is_upper underscore) with false. rewrite andb_false_r.
    cbn [app]. rewrite (sub_B_cons underscore). change (is_lower underscore || is_digit underscore) with false.
    cbn [andb app]. rewrite (sub_B_cons u).
    assert (Lu : (is_lower u || is_digit u) = false) by (unfold is_lower, is_digit, is_upper in *; lia).
    rewrite Lu. cbn [andb app lower map].
    fold (lower (sub_B (sub_A true (l :: r')))).
    assert (Cr' : camel_simple_ (l :: r')) by (apply Cr).
    rewrite (IH (l :: r')) by (try exact Cr'; cbn in *; lia).
    destruct C as (A1 & A2 & A3).
    cbn [camel_words_]. rewrite Hu. change (lower1 underscore) with underscore. cbn [app].
    assert (Nl : is_upper l = false) by (unfold is_lower, is_upper in *; lia). rewrite Nl. reflexivity. }
  intros C k. apply (G (length s)); [lia|exact C].
Qed.

Lemma camel_simple_spec_ s : camel_simple_ s -> from_camel_case s = camel_words_ s.
Proof. intros C. apply camel_simple_B. exact C. Qed.

Lemma str_eqb_spec a b : str_eqb a b = true <-> a = b.
Proof. unfold str_eqb. destruct (list_eq_dec _ a b); split; congruence. Qed.

Section mangle.
  Variable kwlist : list str.
  (** no keyword ends with an underscore *)
  Hypothesis KW : forall s, In (s ++ [underscore]) kwlist -> False.

  Lemma mangle_not_keyword n : ~ In (mangle_name kwlist n) kwlist.
  Proof.
    unfold mangle_name. destruct (existsb (str_eqb n) kwlist) eqn:E.
    - intros I. exact (KW _ I).
    - intros I. assert (X : existsb (str_eqb n) kwlist = true).
      { apply existsb_exists. exists n. split; [exact I|]. apply str_eqb_spec. reflexivity. }
      congruence.
  Qed.
  Lemma mangle_other n : ~ In n kwlist -> mangle_name kwlist n = n.
  Proof.
    intros N. unfold mangle_name. destruct (existsb (str_eqb n) kwlist) eqn:E; [|reflexivity].
    apply existsb_exists in E as (x & I & Q). apply str_eqb_spec in Q. subst x. contradiction.
  Qed.
  (** two different names without a final underscore stay different *)
  Lemma mangle_inj a b : (forall s, a <> s ++ [underscore]) -> (forall s, b <> s ++ [underscore]) ->
    mangle_name kwlist a = mangle_name kwlist b -> a = b.
  Proof.
    intros NA NB. unfold mangle_name.
    destruct (existsb (str_eqb a) kwlist), (existsb (str_eqb b) kwlist); intros E.
    - apply app_inj_tail in E. tauto.
    - symmetry in E. now apply NB in E.
    - now apply NA in E.
    - exact E.
  Qed.
End mangle.

Lemma py_field_name_spec kwlist :
  (forall a, In a kwlist -> ~ In (a ++ [underscore]) kwlist) ->
  forall cc s, ~ In (py_field_name kwlist cc s) kwlist /\
    let n := if cc then from_camel_case s else s in
    (In n kwlist -> py_field_name kwlist cc s = n ++ [underscore]) /\
    (~ In n kwlist -> py_field_name kwlist cc s = n).
Proof.
  intros K cc s. unfold py_field_name. set (n := if cc then _ else _). cbn zeta. unfold mangle_name.
  destruct (existsb (str_eqb n) kwlist) eqn:E.
  - apply existsb_exists in E as (x & I & Q). apply str_eqb_spec in Q. subst x.
    split; [apply K, I|]. split; [reflexivity|contradiction].
  - assert (~ In n kwlist).
    { intros I. assert (existsb (str_eqb n) kwlist = true) by (apply existsb_exists; exists n; split; [exact I|now apply str_eqb_spec]). congruence. }
    split; [assumption|]. split; [contradiction|reflexivity].
Qed.

(** ** The exact description *)
Definition lowdig (p : option Z) : bool := match p with Some c => is_lower c || is_digit c | None => false end.
Fixpoint ins_B (prev : option Z) (s : str) : str :=
  match s with
  | [] => []
  | u :: r => (if lowdig prev && is_upper u then [underscore] else []) ++ u :: ins_B (Some u) r
  end.
Fixpoint snk (prev : option Z) (s : str) : str :=
  match s with
  | [] => []
  | u :: r => (if splits_ prev u r then [underscore] else []) ++ u :: snk (Some u) r
  end.

Lemma upper_not_lowdig u : is_upper u = true -> lowdig (Some u) = false.
Proof. unfold lowdig, is_upper, is_lower, is_digit. lia. Qed.
Lemma ins_B_upper u s : is_upper u = true -> ins_B (Some u) s = ins_B None s.
Proof. intros H. destruct s as [|c s]; [reflexivity|]. cbn [ins_B]. rewrite upper_not_lowdig by exact H. reflexivity. Qed.

Lemma sub_B_ins : forall n s, (length s <= n)%nat -> sub_B s = ins_B None s.
Proof.
  induction n as [|n IH]; intros s H.
  { destruct s; [reflexivity|cbn in H; lia]. }
  destruct s as [|c [|u r]]; [reflexivity|reflexivity|]. cbn [length] in H.
  cbn [sub_B]. destruct ((is_lower c || is_digit c) && is_upper u) eqn:E.
  - rewrite IH by lia. cbn [ins_B lowdig andb app]. rewrite E. cbn [app].
    rewrite ins_B_upper by (apply andb_prop in E; tauto). reflexivity.
  - change (c :: sub_B (u :: r) = ins_B None (c :: u :: r)). rewrite IH by (cbn; lia).
    cbn [ins_B lowdig andb app]. rewrite E. reflexivity.
Qed.

Lemma lower_not_upper l : is_lower l = true -> is_upper l = false.
Proof. unfold is_lower, is_upper. lia. Qed.

Lemma ins_AB : forall n s, (length s <= n)%nat -> forall run p,
  ins_B p (sub_A run s) = match s with [] => [] | c :: r => (if lowdig p && is_upper c then [underscore] else []) ++ c :: snk (Some c) r end.
Proof.
  induction n as [|n IH]; intros s H run p.
  { destruct s; [reflexivity|cbn in H; lia]. }
  destruct s as [|c r]; [reflexivity|]. cbn [length] in H. cbn [sub_A].
  assert (NM : forall run', (forall u l r', r = u :: l :: r' -> (is_lower c || is_digit c) = true \/ negb (c =? 10) && is_upper u && is_lower l = false) ->
     ins_B p (c :: sub_A run' r) = ((if lowdig p && is_upper c then [underscore] else []) ++ c :: snk (Some c) r)%list).
  { intros run' N. cbn [ins_B]. rewrite IH by lia. do 2 f_equal. destruct r as [|u r']; [reflexivity|].
    cbn [snk lowdig]. f_equal. unfold splits_.
    destruct r' as [|l r'']; [rewrite andb_false_r, orb_false_r, andb_comm; reflexivity|].
    destruct (N u l r'' eq_refl) as [E|E].
    - rewrite E. cbn [andb orb]. destruct (is_upper u); reflexivity.
    - destruct (is_upper u); [|rewrite andb_false_r; reflexivity]. rewrite andb_true_r in E. rewrite E, orb_false_r. cbn [andb].
      rewrite andb_true_r. reflexivity. }
  destruct (run && is_lower c) eqn:R.
  { apply NM. intros u l r' _. left. apply andb_prop in R. destruct R as [_ ->]. reflexivity. }
  destruct r as [|u [|l r']].
  - apply NM. discriminate.
  - apply NM. discriminate.
  - destruct (negb (c =? 10) && is_upper u && is_lower l) eqn:M.
    2:{ apply NM. intros u0 l0 r0 E. injection E as <- <- <-. right. exact M. }
    apply andb_prop in M. destruct M as [M ML]. apply andb_prop in M. destruct M as [MC MU].
    cbn [ins_B]. change (is_upper underscore) with false. rewrite andb_false_r.
    rewrite IH by (cbn [length] in *; lia). rewrite (upper_not_lowdig u MU).
    change (lowdig (Some underscore)) with false. cbn [andb app].
    f_equal. f_equal. cbn [snk]. unfold splits_ at 1. rewrite MU, MC, ML. cbn [andb]. rewrite orb_true_r. cbn [app].
    f_equal. f_equal. cbn [splits_]. rewrite (lower_not_upper l ML). reflexivity.
Qed.

Lemma snake_lower : forall s p, lower (snk p s) = snake_ p s.
Proof.
  induction s as [|u r IH]; intros p; [reflexivity|]. cbn [snk snake_]. unfold lower in *. rewrite map_app. cbn [map].
  rewrite IH. destruct (splits_ p u r); reflexivity.
Qed.

Lemma camel_exact_ s : from_camel_case s = snake_ None s.
Proof.
  unfold from_camel_case. rewrite (sub_B_ins _ _ (Nat.le_refl _)), (ins_AB _ _ (Nat.le_refl _)), <- snake_lower.
  destruct s; reflexivity.
Qed.

Lemma camel_simple_spec s : camel_simple s -> from_camel_case s = camel_words s.
Proof. intros C. rewrite words_is. apply camel_simple_spec_. now apply simple_is. Qed.
Theorem camel_exact s : from_camel_case s = snake None s.
Proof. rewrite snake_is. apply camel_exact_. Qed.
