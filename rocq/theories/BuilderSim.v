(** Two builders whose operations correspond make corresponding copies. *)
From Verif Require Import Base Spec BaseFacts Ptr Segment Builder Copy BuilderC.

Section sim.
  Context {A B : Type} (R : A -> B -> Prop).
  Context (w64 : A -> Z -> Z -> res A) (ws : A -> Z -> bytes -> Z -> Z -> res A)
          (ast : A -> Z -> Z -> Z -> res (A * Z)) (al : A -> Z -> Z -> Z -> Z -> res (A * Z)) (rd : seg -> Z -> res Z) (rf : seg -> Z -> res (Z * Z)).
  Context (w64' : B -> Z -> Z -> res B) (ws' : B -> Z -> bytes -> Z -> Z -> res B)
          (ast' : B -> Z -> Z -> Z -> res (B * Z)) (al' : B -> Z -> Z -> Z -> Z -> res (B * Z)) (rd' : seg -> Z -> res Z) (rf' : seg -> Z -> res (Z * Z)).
  Definition sim1 (x : res A) (y : res B) : Prop := forall a, x = Ok a -> exists b, y = Ok b /\ R a b.
  Definition sim2 (x : res (A * Z)) (y : res (B * Z)) : Prop :=
    forall a r, x = Ok (a, r) -> exists b, y = Ok (b, r) /\ R a b.
  Hypothesis Hw64 : forall a b i v, R a b -> sim1 (w64 a i v) (w64' b i v).
  Hypothesis Hws : forall a b i src s n, R a b -> sim1 (ws a i src s n) (ws' b i src s n).
  Hypothesis Hast : forall a b p d q, R a b -> sim2 (ast a p d q) (ast' b p d q).
  Hypothesis Hal : forall a b p t c l, R a b -> sim2 (al a p t c l) (al' b p t c l).
  Hypothesis Hrd : forall s i v, rd s i = Ok v -> rd' s i = Ok v.
  Hypothesis Hrf : forall s i r, rf s i = Ok r -> rf' s i = Ok r.

  Lemma sim1_ok a b : R a b -> sim1 (Ok a) (Ok b).
  Proof. intros H x E. apply ok_inj in E. subst. eauto. Qed.
  Lemma sim1_bind x y (f : A -> res A) (g : B -> res B) :
    sim1 x y -> (forall a b, R a b -> sim1 (f a) (g b)) -> sim1 (bind x f) (bind y g).
  Proof.
    intros H K a E. apply bind_ok in E as (a' & E1 & E2). destruct (H _ E1) as (b' & -> & Rb). cbn [bind]. exact (K _ _ Rb _ E2).
  Qed.
  Lemma sim2_bind x y (f : A * Z -> res A) (g : B * Z -> res B) :
    sim2 x y -> (forall a b r, R a b -> sim1 (f (a, r)) (g (b, r))) -> sim1 (bind x f) (bind y g).
  Proof.
    intros H K a E. apply bind_ok in E as ([a' r] & E1 & E2). destruct (H _ _ E1) as (b' & -> & Rb). cbn [bind]. exact (K _ _ _ Rb _ E2).
  Qed.
  Lemma sim_same {T} (x : res T) (f : T -> res A) (g : T -> res B) :
    (forall t, x = Ok t -> sim1 (f t) (g t)) -> sim1 (bind x f) (bind x g).
  Proof. intros K a E. apply bind_ok in E as (t & E1 & E2). rewrite E1. cbn [bind]. exact (K _ E1 _ E2). Qed.
  Lemma sim_rd s i (f : Z -> res A) (g : Z -> res B) :
    (forall t, sim1 (f t) (g t)) -> sim1 (bind (rd s i) f) (bind (rd' s i) g).
  Proof. intros K a E. apply bind_ok in E as (t & E1 & E2). rewrite (Hrd _ _ _ E1). cbn [bind]. exact (K _ _ E2). Qed.

  Section with_rec.
    Variables (rec : seg -> Z -> Z -> A -> Z -> res A) (rec' : seg -> Z -> Z -> B -> Z -> res B).
    Hypothesis Hrec : forall a b s p pos dp, R a b -> sim1 (rec s p pos a dp) (rec' s p pos b dp).

    Lemma ptrs_loop_sim n : forall s pos a b dp, R a b ->
      sim1 (g_ptrs_loop A rd rec n s pos a dp) (g_ptrs_loop B rd' rec' n s pos b dp).
    Proof.
      induction n as [|n IH]; intros s pos a b dp H; cbn [g_ptrs_loop]; [apply sim1_ok, H|].
      apply sim_rd. intros p. apply sim1_bind.
      - destruct (p =? 0); [apply sim1_ok, H|apply Hrec, H].
      - intros. apply IH. assumption.
    Qed.
    Lemma many_ptrs_sim n s pos a b dp : R a b ->
      sim1 (g_many_ptrs A rd rec n s pos a dp) (g_many_ptrs B rd' rec' n s pos b dp).
    Proof. intros H. unfold g_many_ptrs. apply sim_same. intros _ _. apply ptrs_loop_sim, H. Qed.
    Lemma items_loop_sim n il ps : forall s pos a b dp, R a b ->
      sim1 (g_items_loop A rd rec n il ps s pos a dp) (g_items_loop B rd' rec' n il ps s pos b dp).
    Proof.
      induction n as [|n IH]; intros s pos a b dp H; cbn [g_items_loop]; [apply sim1_ok, H|].
      apply sim1_bind; [apply many_ptrs_sim, H|]. intros. apply IH. assumption.
    Qed.
    Lemma struct_sim s p pos a b dp : R a b ->
      sim1 (g_struct A w64 ws ast rd rec s p pos a dp) (g_struct B w64' ws' ast' rd' rec' s p pos b dp).
    Proof.
      intros H. unfold g_struct. destruct (_ =? 0); [apply Hw64, H|].
      apply sim2_bind; [apply Hast, H|]. intros a1 b1 r H1. apply sim_same. intros _ _.
      apply sim1_bind; [apply Hws, H1|]. intros. apply many_ptrs_sim. assumption.
    Qed.
    Lemma prim_sim s p pos a b dp : R a b ->
      sim1 (g_list_primitive A ws al s p pos a dp) (g_list_primitive B ws' al' s p pos b dp).
    Proof.
      intros H. unfold g_list_primitive. apply sim2_bind; [apply Hal, H|]. intros a1 b1 r H1. apply sim_same. intros _ _.
      apply Hws, H1.
    Qed.
    Lemma ptr_sim s p pos a b dp : R a b ->
      sim1 (g_list_ptr A al rd rec s p pos a dp) (g_list_ptr B al' rd' rec' s p pos b dp).
    Proof.
      intros H. unfold g_list_ptr. apply sim2_bind; [apply Hal, H|]. intros a1 b1 r H1. apply sim_same. intros _ _.
      apply many_ptrs_sim, H1.
    Qed.
    Lemma comp_sim s p pos a b dp : R a b ->
      sim1 (g_list_composite A ws al rd rec s p pos a dp) (g_list_composite B ws' al' rd' rec' s p pos b dp).
    Proof.
      intros H. unfold g_list_composite. apply sim_same. intros _ _. apply sim_rd. intros tag.
      apply sim2_bind; [apply Hal, H|]. intros a1 b1 r H1.
      apply sim1_bind; [apply Hws, H1|]. intros. apply items_loop_sim. assumption.
    Qed.
  End with_rec.

  Lemma copy_sim fuel : forall s p pos a b dp, R a b ->
    sim1 (g_copy A w64 ws ast al rd rf fuel s p pos a dp) (g_copy B w64' ws' ast' al' rd' rf' fuel s p pos b dp).
  Proof.
    induction fuel as [|fuel IH]; intros s p pos a b dp H; cbn [g_copy]; [intros x E; discriminate|].
    destruct (kind p =? STRUCT); [apply struct_sim; [intros; apply IH; assumption|assumption]|].
    destruct (kind p =? LIST).
    { destruct (_ =? LIST_SIZE_COMPOSITE); [apply comp_sim; [intros; apply IH; assumption|assumption]|].
      destruct (_ =? LIST_SIZE_PTR); [apply ptr_sim; [intros; apply IH; assumption|assumption]|apply prim_sim; assumption]. }
    destruct (kind p =? FAR).
    { intros x E. apply bind_ok in E as ([pos' p'] & E1 & E2). rewrite (Hrf _ _ _ E1). cbn [bind]. exact (IH _ _ _ _ _ _ H _ E2). }
    apply sim1_ok, H.
  Qed.
End sim.
