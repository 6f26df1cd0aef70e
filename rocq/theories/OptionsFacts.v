(** Facts about options. *)
From Verif Require Import Base Options.

Lemma combine_assoc a b c : combine a (combine b c) = combine (combine a b) c.
Proof.
  assert (G : forall n x y z : Z,
    (if negb ((if negb (z =? n) then z else y) =? n) then (if negb (z =? n) then z else y) else x)
    = (if negb (z =? n) then z else if negb (y =? n) then y else x)).
  { intros. destruct (Z.eqb_spec z n) as [E|E]; cbn [negb]; [reflexivity|].
    destruct (Z.eqb_spec z n) as [E'|E']; [contradiction|reflexivity]. }
  unfold combine. cbn [version_check convert_case text_type include_reflection_data].
  rewrite !G. reflexivity.
Qed.

Definition unset : opts := mkopts bool_notset bool_notset text_notset bool_notset.
Lemma combine_unset a : combine a unset = a.
Proof. destruct a; reflexivity. Qed.
Lemma combine_idem a : combine a a = a.
Proof.
  destruct a. unfold combine. cbn.
  f_equal; match goal with |- (if ?b then _ else _) = _ => destruct b; reflexivity end.
Qed.

Definition eff (anns : list opts) (d : opts) : opts :=
  mkopts (nearest version_check bool_notset anns (version_check d))
         (nearest convert_case bool_notset anns (convert_case d))
         (nearest text_type text_notset anns (text_type d))
         (nearest include_reflection_data bool_notset anns (include_reflection_data d)).

Lemma eff_cons a anns d : eff (a :: anns) d = eff anns (combine d a).
Proof.
  unfold eff. cbn [nearest]. unfold combine. cbn.
  f_equal; f_equal; match goal with |- (if ?b then _ else _) = _ => destruct b; reflexivity end.
Qed.
Lemma eff_nil d : eff [] d = d.
Proof. destruct d; reflexivity. Qed.
Lemma eff_app ann anns d :
  eff ((match ann with Some a => [a] | None => [] end) ++ anns) d = eff anns (options_generic ann d).
Proof. destruct ann as [a|]; [apply eff_cons|reflexivity]. Qed.

Lemma all_in_iff (l : list onode) opt (p : Z * opts) :
  In p ((fix all l := match l with [] => [] | c :: r => compute_options c opt ++ all r end) l)
  <-> exists c, In c l /\ In p (compute_options c opt).
Proof.
  induction l as [|c l IH]; cbn [In].
  - split; [contradiction|intros (c & [] & _)].
  - rewrite in_app_iff, IH. split.
    + intros [H|(c' & I & H)]; [exists c; auto|exists c'; auto].
    + intros (c' & [<-|I] & H); [auto|right; eauto].
Qed.

Fixpoint onode_size (t : onode) : nat :=
  match t with
  | ONode _ _ ch fs =>
      S ((fix all l := match l with [] => O | c :: r => onode_size c + all r end) ch
         + (fix all l := match l with [] => O | c :: r => onode_size c + all r end) fs)%nat
  end.

Lemma size_in c l : In c l ->
  (onode_size c <= (fix all l := match l with [] => O | c :: r => onode_size c + all r end) l)%nat.
Proof. induction l as [|x l IH]; [contradiction|]. intros [<-|I]; [lia|]. specialize (IH I). lia. Qed.

Lemma compute_options_spec : forall t d id o,
  In (id, o) (compute_options t d) <-> exists anns, path t id anns /\ o = eff anns d.
Proof.
  assert (G : forall n t, (onode_size t <= n)%nat -> forall d id o,
    In (id, o) (compute_options t d) <-> exists anns, path t id anns /\ o = eff anns d).
  { induction n as [|n IH]; intros [i ann ch fs] L d id o; cbn [onode_size] in L; [lia|].
    cbn [compute_options]. cbn [In]. rewrite in_app_iff, !all_in_iff.
    assert (SZ : forall c, In c (ch ++ fs) -> (onode_size c <= n)%nat).
    { intros c I. apply in_app_iff in I as [I|I]; apply size_in in I; lia. }
    split.
    - intros [E|[(c & I & H)|(c & I & H)]].
      + inversion E; subst. exists (match ann with Some a => [a] | None => [] end). split; [constructor|].
        rewrite <- (app_nil_r (match ann with Some a => [a] | None => [] end)), eff_app, eff_nil. reflexivity.
      + apply IH in H as (anns & P & ->); [|apply SZ, in_app_iff; auto].
        eexists. split; [eapply path_below; [apply in_app_iff; eauto|exact P]|]. rewrite eff_app. reflexivity.
      + apply IH in H as (anns & P & ->); [|apply SZ, in_app_iff; auto].
        eexists. split; [eapply path_below; [apply in_app_iff; eauto|exact P]|]. rewrite eff_app. reflexivity.
    - intros (anns & P & ->). inversion P as [|? ? ? ? c ? anns' I P']; subst.
      + left. f_equal. rewrite <- (app_nil_r (match ann with Some a => [a] | None => [] end)), eff_app, eff_nil. reflexivity.
      + rewrite eff_app. right. apply in_app_iff in I as [I|I]; [left|right]; exists c; (split; [exact I|]);
          apply IH; try (apply SZ, in_app_iff; auto); eauto. }
  intros t. apply (G (onode_size t)). lia.
Qed.
