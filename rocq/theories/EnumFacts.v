(** Facts about enums. *)
From Verif Require Import Base BaseFacts Case CaseFacts Enum.

Lemma enum_name_declared ms v : 0 <= v < blen ms -> exists s, nth_error ms (Z.to_nat v) = Some s /\ enum_name ms v = EName s.
Proof.
  intros R. destruct (nth_error ms (Z.to_nat v)) as [s|] eqn:E.
  - exists s. split; [reflexivity|]. unfold enum_name, tuple_get.
    rewrite (proj2 (Z.ltb_ge v 0)), (proj2 (Z.leb_gt (blen ms) v)) by lia.
    rewrite (proj2 (Z.ltb_ge v 0)) by lia. cbn [orb]. now rewrite E.
  - apply nth_error_None in E. unfold blen in R. lia.
Qed.

Lemma enum_name_unknown ms v : blen ms <= v -> enum_name ms v = EUnknown v.
Proof.
  intros R. pose proof (Zle_0_nat (length ms)). unfold enum_name, tuple_get, blen in *.
  rewrite (proj2 (Z.ltb_ge v 0)) by lia. rewrite (proj2 (Z.ltb_ge v 0)), (proj2 (Z.leb_le _ v)) by lia. reflexivity.
Qed.

(** negative values: Python's negative indices *)
Lemma enum_name_negative ms v : - blen ms <= v < 0 ->
  exists s, nth_error ms (Z.to_nat (v + blen ms)) = Some s /\ enum_name ms v = EName s.
Proof.
  intros R. destruct (nth_error ms (Z.to_nat (v + blen ms))) as [s|] eqn:E.
  - exists s. split; [reflexivity|]. unfold enum_name, tuple_get.
    rewrite (proj2 (Z.ltb_lt v 0)) by lia.
    rewrite (proj2 (Z.ltb_ge (v + blen ms) 0)), (proj2 (Z.leb_gt (blen ms) (v + blen ms))) by lia. cbn [orb]. now rewrite E.
  - apply nth_error_None in E. unfold blen in *. lia.
Qed.
Lemma enum_name_very_negative ms v : v < - blen ms -> enum_name ms v = EUnknown v.
Proof.
  intros R. pose proof (Zle_0_nat (length ms)). unfold enum_name, tuple_get, blen in *.
  rewrite (proj2 (Z.ltb_lt v 0)) by lia. rewrite (proj2 (Z.ltb_lt (v + Z.of_nat (length ms)) 0)) by lia. reflexivity.
Qed.

Lemma lookup_app {A} n (a b : list (str * A)) :
  lookup n (a ++ b) = match lookup n a with Some x => Some x | None => lookup n b end.
Proof.
  induction a as [|[m x] a IH]; [reflexivity|]. cbn [app lookup]. destruct (str_eqb n m); [reflexivity|exact IH].
Qed.

Lemma fill_names i ms : map fst (fill_from i ms) = ms.
Proof. revert i. induction ms as [|m ms IH]; intros i; [reflexivity|]. cbn. now rewrite IH. Qed.

Lemma lookup_none {A} n (l : list (str * A)) : ~ In n (map fst l) -> lookup n l = None.
Proof.
  induction l as [|[m x] l IH]; intros N; [reflexivity|]. cbn [lookup map fst In] in *.
  destruct (str_eqb n m) eqn:E; [apply str_eqb_spec in E; subst; tauto|]. apply IH. tauto.
Qed.

Lemma lookup_in {A} n (x : A) l : NoDup (map fst l) -> In (n, x) l -> lookup n l = Some x.
Proof.
  induction l as [|[m y] l IH]; intros ND I; [contradiction|]. cbn [lookup map fst] in *.
  apply NoDup_cons_iff in ND as [N ND]. destruct I as [E|I].
  - inversion E; subst. assert (str_eqb n n = true) by (apply str_eqb_spec; reflexivity). now rewrite H.
  - destruct (str_eqb n m) eqn:E; [|apply IH; assumption].
    apply str_eqb_spec in E. subst m. exfalso. apply N. apply (in_map fst) in I. exact I.
Qed.

Lemma fill_in i ms k s : nth_error ms k = Some s -> In (s, AttrMember (i + Z.of_nat k)) (fill_from i ms).
Proof.
  revert i k. induction ms as [|m ms IH]; intros i [|k] E; try discriminate; cbn [fill_from nth_error] in *.
  - left. f_equal; [congruence|]. f_equal. lia.
  - right. replace (i + Z.of_nat (S k)) with (i + 1 + Z.of_nat k) by lia. apply IH. exact E.
Qed.

Lemma nodup_rev_map {A B} (f : A -> B) l : NoDup (map f l) -> NoDup (map f (rev l)).
Proof. intros N. rewrite map_rev. apply NoDup_rev. exact N. Qed.

Lemma enum_attr_member ms k s : NoDup ms -> nth_error ms k = Some s -> enum_attr ms s = Some (AttrMember (Z.of_nat k)).
Proof.
  intros ND E. unfold enum_attr, enum_attrs. rewrite lookup_app.
  rewrite (lookup_in s (AttrMember (Z.of_nat k))); [reflexivity| |].
  - apply nodup_rev_map. rewrite fill_names. exact ND.
  - apply in_rev. rewrite rev_involutive. apply (fill_in 0). exact E.
Qed.

Lemma enum_str_ok ms v : ~ In s_name ms -> enum_str ms v = Ok (enum_name ms v).
Proof.
  intros N. unfold enum_str, enum_attr, enum_attrs. rewrite lookup_app.
  rewrite lookup_none; [reflexivity|]. rewrite map_rev, fill_names. intros I. apply in_rev in I. contradiction.
Qed.

Lemma enum_str_shadowed ms v : In s_name ms -> enum_str ms v = Err TypeError.
Proof.
  intros I. unfold enum_str, enum_attr, enum_attrs. rewrite lookup_app.
  assert (G : forall l, In s_name (map fst l) -> (forall a, In a (map snd l) -> a <> AttrProperty) ->
    exists k, lookup s_name l = Some (AttrMember k)).
  { induction l as [|[m x] l IH]; intros J P; [contradiction|]. cbn [lookup map fst snd In] in *.
    destruct (str_eqb s_name m) eqn:E.
    - destruct x as [|k]; [exfalso; apply (P AttrProperty); auto|]. exists k. reflexivity.
    - apply IH; [|intros; apply P; auto]. destruct J as [J|J]; [|exact J].
      rewrite (proj2 (str_eqb_spec s_name m)) in E; congruence. }
  destruct (G (rev (fill_from 0 ms))) as [k K].
  - rewrite map_rev. apply in_rev. rewrite rev_involutive, fill_names. exact I.
  - intros a J. rewrite map_rev in J. apply in_rev in J.
    assert (Q : forall i l a, In a (map snd (fill_from i l)) -> a <> AttrProperty).
    { clear. intros i l. revert i. induction l as [|m l IH]; intros i a H; [contradiction|]. destruct H as [<-|H]; [discriminate|eauto]. }
    eapply Q. exact J.
  - rewrite K. reflexivity.
Qed.
