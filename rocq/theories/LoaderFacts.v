(** Proofs about load_schema *)
From Coq Require Import Strings.String Strings.Ascii.
From Verif Require Import Base Case CaseFacts Options Loader.
From Coq Require Import Lists.List.
Local Notation length := Datatypes.length.

Lemma Forall2_impl {A B} (P Q : A -> B -> Prop) l l' :
  (forall x y, P x y -> Q x y) -> Forall2 P l l' -> Forall2 Q l l'.
Proof. intros H. induction 1; constructor; auto. Qed.

Definition same (w w' : world) : Prop :=
  w_fs w = w_fs w' /\ w_cwd w = w_cwd w' /\ w_dirs w = w_dirs w' /\ w_PYX w = w_PYX w'.
Definition keeps (w w' : world) : Prop :=
  forall p m, lookup p (w_mods w) = Some m -> lookup p (w_mods w') = Some m.
Definition ext (w w' : world) : Prop :=
  same w w' /\ keeps w w' /\ exists l, w_heap w' = w_heap w ++ l.

Lemma same_refl w : same w w. Proof. repeat split. Qed.
Lemma same_trans a b c : same a b -> same b c -> same a c.
Proof. unfold same. intuition congruence. Qed.
Lemma same_sym a b : same a b -> same b a. Proof. unfold same. intuition congruence. Qed.
Lemma ext_refl w : ext w w.
Proof. split; [apply same_refl|]. split; [intros p m H; exact H|]. exists []. now rewrite app_nil_r. Qed.
Lemma ext_trans a b c : ext a b -> ext b c -> ext a c.
Proof.
  intros (S1 & K1 & l1 & H1) (S2 & K2 & l2 & H2). split; [eapply same_trans; eassumption|].
  split; [intros p m H; apply K2, K1, H|]. exists (l1 ++ l2). rewrite H2, H1. symmetry. apply app_assoc.
Qed.
Lemma keeps_cached w w' p : keeps w w' -> cached w p -> cached w' p.
Proof. intros K C. unfold cached in *. destruct (lookup p (w_mods w)) as [m|] eqn:E; [|congruence]. rewrite (K _ _ E). discriminate. Qed.

Lemma get_filename_same w w' a : same w w' -> get_filename w a = get_filename w' a.
Proof. intros (F & C & D & P). unfold get_filename. now rewrite F, C, D. Qed.
Lemma imports_same w w' f n : same w w' -> imports w f n -> imports w' f n.
Proof. intros (F & _) (src & i & H). exists src, i. now rewrite <- F. Qed.
Lemma depends_same w w' f g : same w w' -> depends w f g -> depends w' f g.
Proof.
  intros S (n & I & G). exists n. split; [eapply imports_same; eassumption|].
  now rewrite <- (get_filename_same w w').
Qed.
Lemma generate_same w w' f px o : same w w' -> generate w f px o = generate w' f px o.
Proof. intros (F & _). unfold generate. now rewrite F. Qed.
Lemma getpyx_same w w' p : same w w' -> getpyx w p = getpyx w' p.
Proof. intros (_ & _ & _ & P). unfold getpyx. now rewrite P. Qed.

(** *** dictionaries *)
Lemma lookup_set f m d g : lookup g (dict_set f m d) = if path_eq_dec f g then Some m else lookup g d.
Proof.
  induction d as [|[k v] r IH]; unfold lookup in *; cbn [dict_set find fst snd].
  - destruct (path_eq_dec f g); reflexivity.
  - destruct (path_eq_dec k f) as [->|N]; cbn [find fst snd].
    + destruct (path_eq_dec f g); reflexivity.
    + destruct (path_eq_dec k g) as [->|N2]; cbn [find fst snd].
      * destruct (path_eq_dec f g) as [->|]; [congruence|reflexivity].
      * exact IH.
Qed.

(** *** the generator *)
Lemma declare_in : forall imps names l, declare_imports names imps = Ret l ->
  forall name n, In (name, n) l ->
    exists i, In i imps /\ imp_node i <> None /\ imp_name i = n /\ n <> lit "/capnp/c++.capnp".
Proof.
  induction imps as [|i r IH]; intros names l H name n I.
  { injection H as <-. contradiction. }
  cbn [declare_imports] in H. destruct (imp_node i) as [fname|] eqn:Ni.
  - destruct (negb (ascii fname)); [discriminate|].
    destruct (register_import names fname) as [nm|]; [|discriminate].
    destruct (negb (ascii (imp_name i))); [discriminate|].
    destruct (declare_imports _ r) as [l'|] eqn:D; [|discriminate].
    destruct (str_eqb (imp_name i) _) eqn:Q.
    + injection H as <-. destruct (IH _ _ D _ _ I) as (j & J). exists j. split; [right; tauto|tauto].
    + injection H as <-. destruct I as [E|I].
      * injection E as <- <-. exists i. split; [now left|]. split; [congruence|]. split; [reflexivity|].
        intros E. apply (proj2 (str_eqb_spec _ _)) in E. congruence.
      * destruct (IH _ _ D _ _ I) as (j & J). exists j. split; [right; tauto|tauto].
  - destruct (IH _ _ H _ _ I) as (j & J). exists j. split; [right; tauto|tauto].
Qed.
Lemma declare_all : forall imps names l, declare_imports names imps = Ret l ->
  forall i, In i imps -> imp_node i <> None -> imp_name i <> lit "/capnp/c++.capnp" ->
    exists name, In (name, imp_name i) l.
Proof.
  induction imps as [|i r IH]; intros names l H j J Nj Cj; [contradiction|].
  cbn [declare_imports] in H. destruct (imp_node i) as [fname|] eqn:Ni.
  - destruct (negb (ascii fname)); [discriminate|].
    destruct (register_import names fname) as [nm|]; [|discriminate].
    destruct (negb (ascii (imp_name i))); [discriminate|].
    destruct (declare_imports _ r) as [l'|] eqn:D; [|discriminate].
    destruct J as [<-|J].
    + destruct (str_eqb (imp_name i) _) eqn:Q.
      * apply str_eqb_spec in Q. congruence.
      * injection H as <-. exists nm. now left.
    + destruct (IH _ _ D _ J Nj Cj) as (name & I). exists name.
      destruct (str_eqb (imp_name i) _); injection H as <-; [exact I|now right].
  - destruct J as [<-|J]; [congruence|]. eapply IH; eassumption.
Qed.

Lemma generate_inv w f px o src stmts : generate w f px o = Ret (src, stmts) ->
  w_fs w f = Some src /\ declare_imports [] (src_imports src) = Ret stmts /\
  generate w f false o = Ret (src, stmts).
Proof.
  unfold generate. destruct (w_fs w f) as [s|]; [|discriminate].
  destruct (negb (src_capnp s)); [discriminate|]. destruct (negb (forallb ascii f)); [discriminate|].
  destruct (declare_imports [] (src_imports s)) as [l|] eqn:D; [|discriminate].
  destruct (negb (src_gen s)); [discriminate|].
  match goal with |- context [?A && ?B && (negb px || ident (tmpname f))] => set (AB := A && B) end.
  cbn zeta. destruct (AB && (negb px || ident (tmpname f))) eqn:E; [|discriminate].
  intros H. injection H as <- <-. split; [reflexivity|]. split; [exact D|].
  cbn [negb orb].
  apply andb_prop in E as (E & _). rewrite E. reflexivity.
Qed.
Lemma generate_stmts w f px o src stmts : generate w f px o = Ret (src, stmts) ->
  (forall name n, In (name, n) stmts -> imports w f n) /\
  (forall n, imports w f n -> exists name, In (name, n) stmts).
Proof.
  intros G. apply generate_inv in G as (F & D & _). split.
  - intros name n I. destruct (declare_in _ _ _ D _ _ I) as (i & I1 & I2 & I3 & I4). exists src, i. auto.
  - intros n (s & i & F' & I & Ni & <- & C). rewrite F in F'. injection F' as <-.
    eapply declare_all; eassumption.
Qed.

(** *** no file is loaded while it is being loaded *)
Inductive reach (w : world) : path -> path -> Prop :=
| reach_here p : ~ cached w p -> reach w p p
| reach_dep f g p : ~ cached w f -> depends w f g -> reach w g p -> reach w f p.

Lemma reach_trans w a b c : reach w a b -> reach w b c -> reach w a c.
Proof. induction 1; intros; [assumption|]. eapply reach_dep; eauto. Qed.
Lemma reach_end w a b : reach w a b -> ~ cached w b.
Proof. induction 1; assumption. Qed.
Lemma reach_start w a b : reach w a b -> ~ cached w a.
Proof. destruct 1; assumption. Qed.
Lemma reach_mono w w1 f p : same w w1 -> keeps w w1 -> reach w1 f p -> reach w f p.
Proof.
  intros S K. induction 1.
  - apply reach_here. intros C. apply (keeps_cached _ _ _ K) in C. contradiction.
  - eapply reach_dep; [|eapply depends_same; [apply same_sym, S|eassumption]|assumption].
    intros C. apply (keeps_cached _ _ _ K) in C. contradiction.
Qed.

Lemma no_cycle w : forall f o, loadable w f o -> forall g, ~ cached w f -> depends w f g -> reach w g f -> False.
Proof.
  fix IH 3. intros f o L g C D R. destruct L as [f o Cf|f o src stmts G X A]; [contradiction|].
  destruct D as (n & I & N). destruct (A _ I) as (g' & N' & L').
  assert (g' = g) by congruence.
  inversion R as [p Cp E1 E2|f0 h p Cg Dg Rg E1 E2].
  - apply (IH g' None L' g); subst; [assumption|exists n; auto|assumption].
  - apply (IH g' None L' h); subst; [assumption|assumption|].
    eapply reach_trans; [exact Rg|]. eapply reach_dep; [exact C|exists n; split; eassumption|].
    apply reach_here. exact Cg.
Qed.

Lemma loadable_mono w w1 : same w w1 -> (forall q, cached w1 q -> cached w q \/ loadable w q None) ->
  forall p, loadable w1 p None -> loadable w p None.
Proof.
  intros S Q p L.
  assert (H : forall p o, loadable w1 p o -> o = None -> loadable w p o); [clear p L|exact (H _ _ L eq_refl)].
  fix IH 3. intros p o L Eo. destruct L as [f o C|f o src stmts G X A].
  - destruct (Q _ C); [now constructor|rewrite Eo; assumption].
  - eapply loadable_source; [rewrite (generate_same w w1) by exact S; exact G|exact X|].
    intros n I. destruct (A n (imports_same _ _ _ _ S I)) as (g & N & L). exists g.
    rewrite (get_filename_same w w1) by exact S. split; [exact N|]. apply IH; [exact L|reflexivity].
Qed.

(** *** what one call does *)
Definition adds (w w' : world) (f : path) (o : option opts) : Prop :=
  forall p, cached w' p -> cached w p \/ ((loadable w p None \/ p = f /\ loadable w f o) /\ reach w f p).
Definition call_spec (w : world) (a : args) (o : option opts) (r : lres nat) (w' : world) : Prop :=
  ext w w' /\
  match get_filename w a with
  | Ret f => adds w w' f o /\ (forall m, r = Ret m -> lookup f (w_mods w') = Some m)
  | Raise e => w' = w /\ forall m, r <> Ret m
  end.

Lemma call_ret w a o m w' : call_spec w a o (Ret m) w' ->
  exists f, get_filename w a = Ret f /\ adds w w' f o /\ lookup f (w_mods w') = Some m.
Proof.
  intros (_ & H). destruct (get_filename w a) as [f|e]; [|destruct H as (_ & H); now apply H in H || exfalso; now apply (H m)].
  exists f. split; [reflexivity|]. destruct H as (A & B). auto.
Qed.

Lemma exec_imports_spec ld :
  (forall w n r w', ld w n = (r, w') -> call_spec w (by_importname n) None r w') ->
  forall stmts w r w', exec_imports ld w stmts = (r, w') ->
    ext w w' /\
    (forall p, cached w' p -> cached w p \/
       exists name n g, In (name, n) stmts /\ get_filename w (by_importname n) = Ret g /\
         loadable w p None /\ reach w g p) /\
    (forall refs, r = Ret refs -> Forall2 (fun s x => fst x = fst s /\
        exists g, get_filename w (by_importname (snd s)) = Ret g /\ lookup g (w_mods w') = Some (snd x)) stmts refs).
Proof.
  intros LD. induction stmts as [|(name, n) r IH]; intros w res w' H.
  - injection H as <- <-. split; [apply ext_refl|]. split; [intros p C; now left|].
    intros refs E. injection E as <-. constructor.
  - cbn [exec_imports] in H. destruct (ld w n) as [[m|e] w1] eqn:E1.
    + pose proof (LD _ _ _ _ E1) as C1. destruct (call_ret _ _ _ _ _ C1) as (g & Gg & Ad & Lk).
      destruct C1 as (X1 & _).
      destruct (exec_imports ld w1 r) as [r2 w2] eqn:E2.
      destruct (IH _ _ _ E2) as (X2 & A2 & F2).
      assert (W' : w' = w2) by (destruct r2; injection H; auto). subst w2.
      pose proof (ext_trans _ _ _ X1 X2) as X. destruct X1 as (S1 & K1 & _).
      assert (Q1 : forall q, cached w1 q -> cached w q \/ loadable w q None).
      { intros q C. destruct (Ad q C) as [|[[L|[-> L]] _]]; auto. }
      split; [exact X|]. split.
      * intros p C. destruct (A2 p C) as [C1|(nm & n2 & g2 & I2 & G2 & L2 & R2)].
        -- destruct (Ad p C1) as [|[[L|[-> L]] R]]; [now left| |]; right; exists name, n, g;
             (split; [now left|]); auto.
        -- right. exists nm, n2, g2. split; [now right|]. rewrite (get_filename_same w w1) by exact S1.
           split; [exact G2|]. split; [eapply loadable_mono; eassumption|eapply reach_mono; eassumption].
      * intros refs E. destruct r2 as [l|]; [|injection H as <-; discriminate].
        injection H as <-. injection E as <-. constructor.
        -- split; [reflexivity|]. exists g. split; [exact Gg|]. destruct X2 as (_ & K2 & _). apply K2, Lk.
        -- eapply Forall2_impl; [|apply F2; reflexivity]. cbn beta. intros [nm n2] x (Q & g2 & G2 & L2).
           split; [exact Q|]. exists g2. now rewrite (get_filename_same w w1).
    + injection H as <- <-. pose proof (LD _ _ _ _ E1) as (X1 & C1).
      split; [exact X1|]. split; [|intros refs E; discriminate].
      intros p C. destruct (get_filename w (by_importname n)) as [g|] eqn:Gg.
      * destruct C1 as (Ad & _). destruct (Ad p C) as [|[[L|[-> L]] R]]; [now left| |]; right; exists name, n, g;
             (split; [now left|]); auto.
      * destruct C1 as (-> & _). now left.
Qed.

Lemma sys_add_same w n : ext w (sys_add w n) /\ w_mods (sys_add w n) = w_mods w /\ w_heap (sys_add w n) = w_heap w.
Proof.
  unfold sys_add. destruct (existsb _ _); [split; [apply ext_refl|split; reflexivity]|].
  split; [|split; reflexivity]. split; [repeat split|]. split; [intros p m H; exact H|].
  exists []. cbn. now rewrite app_nil_r.
Qed.
Lemma sys_del_same w n r w' : sys_del w n = (r, w') -> ext w w' /\ w_mods w' = w_mods w /\ w_heap w' = w_heap w.
Proof.
  unfold sys_del. destruct (existsb _ _); intros H; injection H as <- <-.
  - split; [|split; reflexivity]. split; [repeat split|]. split; [intros p m H; exact H|].
    exists []. cbn. now rewrite app_nil_r.
  - split; [apply ext_refl|split; reflexivity].
Qed.

(** compile_file: the world after the imports, and after the module *)
Definition compiled (w : world) (f : path) (px : bool) (o : option opts) (r : lres nat) (w' : world) : Prop :=
  ext w w' /\
  (forall p, cached w' p -> cached w p \/
     exists n g, imports w f n /\ get_filename w (by_importname n) = Ret g /\
       loadable w p None /\ reach w g p) /\
  (forall m, r = Ret m -> exists src stmts refs,
     generate w f px o = Ret (src, stmts) /\ src_exec src = true /\
     nth_error (w_heap w') m = Some (mkmodl f src px (default_options o) refs) /\
     Forall2 (fun s x => fst x = fst s /\
        exists g, get_filename w (by_importname (snd s)) = Ret g /\ lookup g (w_mods w') = Some (snd x)) stmts refs).

Lemma cached_mods w w' p : w_mods w' = w_mods w -> cached w' p <-> cached w p.
Proof. unfold cached. intros ->. reflexivity. Qed.
Lemma reach_mods w w' f p : same w w' -> w_mods w' = w_mods w -> reach w' f p -> reach w f p.
Proof. intros S M. apply reach_mono; [exact S|]. intros q m H. now rewrite M. Qed.
Lemma loadable_mods w w' p : same w w' -> w_mods w' = w_mods w -> loadable w' p None -> loadable w p None.
Proof. intros S M. apply loadable_mono; [exact S|]. intros q C. left. now apply (cached_mods w w'). Qed.

Lemma exec_module_spec ld :
  (forall w n r w', ld w n = (r, w') -> call_spec w (by_importname n) None r w') ->
  forall w f px o src stmts r w', generate w f px o = Ret (src, stmts) ->
    exec_module ld w f px o src stmts = (r, w') ->
    ext w w' /\
    (forall p, cached w' p -> cached w p \/
       exists n g, imports w f n /\ get_filename w (by_importname n) = Ret g /\
         loadable w p None /\ reach w g p) /\
    (forall x, r = Ret x -> src_exec src = true /\ exists refs, x = mkmodl f src px (default_options o) refs /\
       Forall2 (fun s x => fst x = fst s /\
        exists g, get_filename w (by_importname (snd s)) = Ret g /\ lookup g (w_mods w') = Some (snd x)) stmts refs).
Proof.
  intros LD w f px o src stmts r w' G H. unfold exec_module in H.
  destruct (exec_imports ld w stmts) as [r1 w1] eqn:E. destruct (exec_imports_spec ld LD _ _ _ _ E) as (X & A & F).
  assert (W : w' = w1) by (destruct r1; [destruct (src_exec src)|]; injection H; auto). subst w1.
  split; [exact X|]. split.
  - intros p C. destruct (A p C) as [|(name & n & g & I & Gg & L & R)]; [now left|].
    right. exists n, g. split; [|auto]. destruct (generate_stmts _ _ _ _ _ _ G) as (S1 & _). eapply S1, I.
  - intros x ->. destruct r1 as [refs|]; [|discriminate]. destruct (src_exec src); [|discriminate].
    split; [reflexivity|]. exists refs. split; [congruence|]. apply F. reflexivity.
Qed.

Lemma alloc_spec w m : let '(i, w') := alloc w m in
  ext w w' /\ w_mods w' = w_mods w /\ nth_error (w_heap w') i = Some m.
Proof.
  unfold alloc. split; [|split; [reflexivity|]].
  - split; [repeat split|]. split; [intros p k H; exact H|]. exists [m]. reflexivity.
  - cbn. rewrite nth_error_app2 by lia. now rewrite Nat.sub_diag.
Qed.

Lemma compile_file_spec ld :
  (forall w n r w', ld w n = (r, w') -> call_spec w (by_importname n) None r w') ->
  forall w f px o r w', compile_file ld w f px o = (r, w') -> compiled w f px o r w'.
Proof.
  intros LD w f px o r w' H. unfold compile_file in H.
  destruct (generate w f px o) as [[src stmts]|e] eqn:G.
  2: { injection H as <- <-. split; [apply ext_refl|]. split; [now left|discriminate]. }
  destruct px.
  - cbn zeta in H. set (w0 := sys_add (sys_add w (tmpname f)) (extname f)) in H.
    assert (X0 : ext w w0 /\ w_mods w0 = w_mods w).
    { destruct (sys_add_same w (tmpname f)) as (X1 & M1 & _).
      destruct (sys_add_same (sys_add w (tmpname f)) (extname f)) as (X2 & M2 & _).
      split; [eapply ext_trans; eassumption|]. unfold w0. now rewrite M2. }
    destruct X0 as (X0 & M0). assert (S0 : same w w0) by apply X0.
    destruct (exec_module ld w0 f true o src stmts) as [r1 w1] eqn:E.
    rewrite (generate_same w w0) in G by exact S0.
    destruct (exec_module_spec ld LD _ _ _ _ _ _ _ _ G E) as (X1 & A1 & F1).
    rewrite <- (generate_same w w0) in G by exact S0.
    assert (A : forall p, cached w1 p -> cached w p \/
     exists n g, imports w f n /\ get_filename w (by_importname n) = Ret g /\
       loadable w p None /\ reach w g p).
    { intros p C. destruct (A1 p C) as [C0|(n & g & I & Gg & L & R)].
      - left. now apply (cached_mods w w0).
      - right. exists n, g. split; [eapply imports_same; [apply same_sym, S0|exact I]|].
        split; [now rewrite (get_filename_same w w0)|].
        split; [eapply loadable_mods; eassumption|eapply reach_mods; eassumption]. }
    pose proof (ext_trans _ _ _ X0 X1) as X.
    destruct r1 as [x|e]; [|injection H as <- <-; split; [exact X|]; split; [exact A|discriminate]].
    destruct (sys_del w1 (extname f)) as [r2 w2] eqn:D2. destruct (sys_del_same _ _ _ _ D2) as (X2 & M2 & _).
    pose proof (ext_trans _ _ _ X X2) as X'.
    destruct r2 as [u|e]; [|injection H as <- <-; split; [exact X'|]; split; [|discriminate];
      intros p C; apply A; now apply (cached_mods w1 w2)].
    destruct (sys_del w2 (tmpname f)) as [r3 w3] eqn:D3. destruct (sys_del_same _ _ _ _ D3) as (X3 & M3 & _).
    pose proof (ext_trans _ _ _ X' X3) as X''.
    destruct r3 as [u'|e]; [|injection H as <- <-; split; [exact X''|]; split; [|discriminate];
      intros p C; apply A; apply (cached_mods w1 w3); [congruence|exact C]].
    pose proof (alloc_spec w3 x) as Al. destruct (alloc w3 x) as [i w4]. destruct Al as (X4 & M4 & N4).
    injection H as <- <-. split; [eapply ext_trans; eassumption|]. split.
    + intros p C. apply A. apply (cached_mods w1 w4); [congruence|exact C].
    + intros m Em. injection Em as <-. destruct (F1 x eq_refl) as (Sx & refs & -> & F).
      exists src, stmts, refs. split; [exact G|]. split; [exact Sx|]. split; [exact N4|].
      eapply Forall2_impl; [|exact F]. cbn beta. intros s y (Q & g & Gg & L). split; [exact Q|]. exists g.
      rewrite (get_filename_same w w0) by exact S0. split; [exact Gg|]. rewrite M4, M3, M2. exact L.
  - destruct (exec_module ld w f false o src stmts) as [r1 w1] eqn:E.
    destruct (exec_module_spec ld LD _ _ _ _ _ _ _ _ G E) as (X1 & A1 & F1).
    destruct r1 as [x|e]; [|injection H as <- <-; split; [exact X1|]; split; [exact A1|discriminate]].
    pose proof (alloc_spec w1 x) as Al. destruct (alloc w1 x) as [i w4]. destruct Al as (X4 & M4 & N4).
    injection H as <- <-. split; [eapply ext_trans; eassumption|]. split.
    + intros p C. apply A1. now apply (cached_mods w1 w4).
    + intros m Em. injection Em as <-. destruct (F1 x eq_refl) as (Sx & refs & -> & F).
      exists src, stmts, refs. split; [exact G|]. split; [exact Sx|]. split; [exact N4|].
      eapply Forall2_impl; [|exact F]. cbn beta. intros s y (Q & g & Gg & L). split; [exact Q|]. exists g.
      split; [exact Gg|]. rewrite M4. exact L.
Qed.

Lemma Forall2_in {A B} (R : A -> B -> Prop) l l' x : Forall2 R l l' -> In x l -> exists y, In y l' /\ R x y.
Proof. induction 1; [contradiction|]. intros [<-|I]; [eexists; split; [now left|eassumption]|]. destruct (IHForall2 I) as (y0 & Y & Q). exists y0. split; [now right|exact Q]. Qed.

(** what a compilation proves: the file was loadable, and was not loaded on
    the way *)
Lemma compiled_loadable w f px o m w' : ~ cached w f -> compiled w f px o (Ret m) w' ->
  loadable w f o /\ ~ cached w' f.
Proof.
  intros C (X & A & F). destruct (F m eq_refl) as (src & stmts & refs & G & Sx & N & R).
  assert (L : loadable w f o).
  { pose proof (generate_inv _ _ _ _ _ _ G) as (_ & _ & G'). eapply loadable_source; [exact G'|exact Sx|].
    intros n I. destruct (generate_stmts _ _ _ _ _ _ G) as (_ & S2). destruct (S2 _ I) as (name & J).
    destruct (Forall2_in _ _ _ _ R J) as (y & _ & _ & g & Gg & Lk). cbn [snd] in Gg. exists g. split; [exact Gg|].
    assert (Cg : cached w' g) by (unfold cached; rewrite Lk; discriminate).
    destruct (A g Cg) as [C0|(_ & _ & _ & _ & L & _)]; [now constructor|exact L]. }
  split; [exact L|]. intros C'. destruct (A f C') as [|(n & g & I & Gg & _ & Rg)]; [contradiction|].
  eapply no_cycle; [exact L|exact C|exists n; split; eassumption|exact Rg].
Qed.

Lemma load_spec : forall fuel w a pyx o r w', load_schema fuel w a pyx o = (r, w') -> call_spec w a o r w'.
Proof.
  induction fuel as [|fuel IH]; intros w a pyx o r w' H.
  { injection H as <- <-. split; [apply ext_refl|]. destruct (get_filename w a); [|split; [reflexivity|discriminate]].
    split; [intros q C; now left|discriminate]. }
  cbn [load_schema] in H. destruct (getpyx w pyx) as [px|e].
  2: { injection H as <- <-. split; [apply ext_refl|]. destruct (get_filename w a); [|split; [reflexivity|discriminate]].
    split; [intros q C; now left|discriminate]. }
  unfold call_spec.
  destruct (get_filename w a) as [f|e] eqn:Gf; [|injection H as <- <-; split; [apply ext_refl|split; [reflexivity|discriminate]]].
  destruct (lookup f (w_mods w)) as [m|] eqn:Lk.
  { injection H as <- <-. split; [apply ext_refl|]. split; [intros q C; now left|]. intros k E. injection E as <-. exact Lk. }
  assert (Cf : ~ cached w f) by (unfold cached; rewrite Lk; congruence).
  match type of H with (match compile_file ?l _ _ _ _ with _ => _ end) = _ => set (ld := l) in H end.
  destruct (compile_file ld w f px o) as [r1 w1] eqn:E.
  assert (LD : forall w n r w', ld w n = (r, w') -> call_spec w (by_importname n) None r w').
  { intros w2 n r2 w2' H2. eapply IH. exact H2. }
  pose proof (compile_file_spec ld LD _ _ _ _ _ _ E) as Cm.
  destruct r1 as [m|e].
  - destruct (compiled_loadable _ _ _ _ _ _ Cf Cm) as (L & C1). destruct Cm as (X & A & F).
    injection H as <- <-. split.
    + eapply ext_trans; [exact X|]. split; [repeat split|]. split; [|exists []; cbn; now rewrite app_nil_r].
      intros p k Hk. cbn [set_mods w_mods]. rewrite lookup_set. destruct (path_eq_dec f p) as [->|]; [|exact Hk].
      unfold cached in C1. rewrite Hk in C1. exfalso. apply C1. discriminate.
    + split.
      * intros p C. unfold cached in C. cbn [set_mods w_mods] in C. rewrite lookup_set in C.
        destruct (path_eq_dec f p) as [->|N].
        -- right. split; [right; auto|]. apply reach_here. exact Cf.
        -- destruct (A p C) as [|(n & g & I & Gg & Lp & R)]; [now left|]. right. split; [now left|].
           eapply reach_dep; [exact Cf|exists n; split; eassumption|exact R].
      * intros k Ek. injection Ek as <-. cbn [set_mods w_mods]. rewrite lookup_set.
        destruct (path_eq_dec f f); [reflexivity|congruence].
  - injection H as <- <-. destruct Cm as (X & A & F). split; [exact X|]. split; [|discriminate].
    intros p C. destruct (A p C) as [|(n & g & I & Gg & Lp & R)]; [now left|]. right. split; [now left|].
    eapply reach_dep; [exact Cf|exists n; split; eassumption|exact R].
Qed.

(** *** histories *)
Lemma step_keeps w x : keeps w (step w x).
Proof.
  destruct x as [fuel a pyx o|f s|d]; cbn [step]; [|intros p m H; exact H..].
  destruct (load_schema fuel w a pyx o) as [r w'] eqn:E. apply load_spec in E as ((_ & K & _) & _). exact K.
Qed.
Lemma run_keeps : forall ops w, keeps w (run w ops).
Proof.
  induction ops as [|x r IH]; intros w p m H; [exact H|]. cbn. apply IH. apply step_keeps. exact H.
Qed.

Theorem load_same_object fuel w a pyx o m w1 f :
  load_schema fuel w a pyx o = (Ret m, w1) -> get_filename w a = Ret f ->
  forall ops a' pyx' o' fuel' px',
    get_filename (run w1 ops) a' = Ret f -> getpyx (run w1 ops) pyx' = Ret px' ->
    load_schema (S fuel') (run w1 ops) a' pyx' o' = (Ret m, run w1 ops).
Proof.
  intros H G ops a' pyx' o' fuel' px' G' P'. apply load_spec in H. destruct (call_ret _ _ _ _ _ H) as (g & Gg & _ & Lk).
  rewrite G in Gg. injection Gg as <-. apply (run_keeps ops) in Lk.
  cbn [load_schema]. now rewrite P', G', Lk.
Qed.

Theorem load_failure fuel w a pyx o e w1 f :
  load_schema fuel w a pyx o = (Raise e, w1) -> get_filename w a = Ret f ->
  lookup f (w_mods w1) = lookup f (w_mods w).
Proof.
  intros H G. destruct fuel as [|fuel]; [injection H as _ <-; reflexivity|].
  cbn [load_schema] in H. destruct (getpyx w pyx) as [px|e'] eqn:Ep; [|injection H as _ <-; reflexivity].
  rewrite G in H.
  destruct (lookup f (w_mods w)) as [m|] eqn:Lk; [discriminate|].
  assert (Cf : ~ cached w f) by (unfold cached; rewrite Lk; congruence).
  match type of H with (match compile_file ?l _ _ _ _ with _ => _ end) = _ => set (ld := l) in H end.
  destruct (compile_file ld w f px o) as [r1 w2] eqn:E.
  assert (LD : forall w n r w', ld w n = (r, w') -> call_spec w (by_importname n) None r w').
  { intros w3 n r2 w2' H2. eapply load_spec. exact H2. }
  destruct (compile_file_spec ld LD _ _ _ _ _ _ E) as (_ & A & _).
  destruct r1 as [m|e1]; [discriminate|]. injection H as <- <-.
  destruct (lookup f (w_mods w2)) as [m|] eqn:L2; [|reflexivity]. exfalso.
  assert (C2 : cached w2 f) by (unfold cached; rewrite L2; discriminate).
  destruct (A f C2) as [|(n & g & I & Gg & L & R)]; [contradiction|].
  eapply no_cycle; [exact L|exact Cf|exists n; split; eassumption|exact R].
Qed.

(** *** the references of a module *)
Theorem load_fresh fuel w a pyx o m w1 f :
  load_schema fuel w a pyx o = (Ret m, w1) -> get_filename w a = Ret f -> lookup f (w_mods w) = None ->
  loadable w f o /\
  exists px src stmts refs, getpyx w pyx = Ret px /\ w_fs w f = Some src /\
    declare_imports [] (src_imports src) = Ret stmts /\
    nth_error (w_heap w1) m = Some (mkmodl f src px (default_options o) refs) /\
    Forall2 (fun s x => fst x = fst s /\
        exists g, get_filename w (by_importname (snd s)) = Ret g /\ lookup g (w_mods w1) = Some (snd x)) stmts refs.
Proof.
  intros H G Lk. destruct fuel as [|fuel]; [discriminate|].
  cbn [load_schema] in H. destruct (getpyx w pyx) as [px|e'] eqn:Ep; [|discriminate].
  rewrite G, Lk in H.
  assert (Cf : ~ cached w f) by (unfold cached; rewrite Lk; congruence).
  match type of H with (match compile_file ?l _ _ _ _ with _ => _ end) = _ => set (ld := l) in H end.
  destruct (compile_file ld w f px o) as [r1 w2] eqn:E.
  assert (LD : forall w n r w', ld w n = (r, w') -> call_spec w (by_importname n) None r w').
  { intros w3 n r2 w2' H2. eapply load_spec. exact H2. }
  pose proof (compile_file_spec ld LD _ _ _ _ _ _ E) as Cm.
  destruct r1 as [k|e1]; [|discriminate]. injection H as -> <-.
  destruct (compiled_loadable _ _ _ _ _ _ Cf Cm) as (L & C1). split; [exact L|].
  destruct Cm as (_ & _ & F). destruct (F m eq_refl) as (src & stmts & refs & Ge & Sx & N & R).
  destruct (generate_inv _ _ _ _ _ _ Ge) as (Fs & D & _).
  exists px, src, stmts, refs. split; [reflexivity|]. split; [exact Fs|]. split; [exact D|].
  cbn [set_mods w_heap w_mods]. split; [exact N|]. eapply Forall2_impl; [|exact R]. cbn beta.
  intros s x (Q & g & Gg & Lg). split; [exact Q|]. exists g. split; [exact Gg|]. rewrite lookup_set.
  destruct (path_eq_dec f g) as [->|]; [|exact Lg]. unfold cached in C1. rewrite Lg in C1. exfalso. apply C1. discriminate.
Qed.

(** each import is bound to the module that load_schema returns for it *)
Theorem load_refs fuel w a pyx o m w1 f :
  load_schema fuel w a pyx o = (Ret m, w1) -> get_filename w a = Ret f -> lookup f (w_mods w) = None ->
  exists md, nth_error (w_heap w1) m = Some md /\ m_path md = f /\ w_fs w f = Some (m_src md) /\
    getpyx w pyx = Ret (m_pyx md) /\ m_opts md = default_options o /\
    (forall n, imports w f n -> exists name r, In (name, r) (m_refs md) /\
       forall fuel' pyx' o' px', getpyx w1 pyx' = Ret px' ->
         load_schema (S fuel') w1 (by_importname n) pyx' o' = (Ret r, w1)).
Proof.
  intros H G Lk. destruct (load_fresh _ _ _ _ _ _ _ _ H G Lk) as (_ & px & src & stmts & refs & P & Fs & D & N & R).
  exists (mkmodl f src px (default_options o) refs). split; [exact N|]. cbn [m_path m_src m_pyx m_opts m_refs]. split; [reflexivity|]. split; [exact Fs|].
  split; [exact P|]. split; [reflexivity|].
  pose proof (load_spec _ _ _ _ _ _ _ H) as ((S1 & _) & _).
  intros n (s & i & Fs' & I & Ni & <- & C). rewrite Fs in Fs'. injection Fs' as <-.
  destruct (declare_all _ _ _ D _ I Ni C) as (name & J).
  destruct (Forall2_in _ _ _ _ R J) as ((nm & r) & Ir & _ & g & Gg & Lg). cbn [fst snd] in *.
  exists nm, r. split; [exact Ir|]. intros fuel' pyx' o' px' P'. cbn [load_schema].
  rewrite P', <- (get_filename_same w w1) by exact S1. now rewrite Gg, Lg.
Qed.

(** *** more recursion depth changes nothing *)
Lemma exec_imports_more ld ld' :
  (forall w n r w', ld w n = (r, w') -> r <> Raise LRecursion -> ld' w n = (r, w')) ->
  forall stmts w r w', exec_imports ld w stmts = (r, w') -> r <> Raise LRecursion ->
    exec_imports ld' w stmts = (r, w').
Proof.
  intros LD. induction stmts as [|(name, n) l IH]; intros w r w' H N; [exact H|].
  cbn [exec_imports] in *. destruct (ld w n) as [[m|e] w1] eqn:E.
  - rewrite (LD _ _ _ _ E) by discriminate. destruct (exec_imports ld w1 l) as [r2 w2] eqn:E2.
    assert (N2 : r2 <> Raise LRecursion) by (destruct r2; [discriminate|]; injection H as <- _; exact N).
    rewrite (IH _ _ _ E2 N2). exact H.
  - injection H as <- <-. rewrite (LD _ _ _ _ E); [reflexivity|]. intros Q. apply N. now injection Q as ->.
Qed.
Lemma compile_file_more ld ld' :
  (forall w n r w', ld w n = (r, w') -> r <> Raise LRecursion -> ld' w n = (r, w')) ->
  forall w f px o r w', compile_file ld w f px o = (r, w') -> r <> Raise LRecursion ->
    compile_file ld' w f px o = (r, w').
Proof.
  intros LD w f px o r w' H N. unfold compile_file in *.
  destruct (generate w f px o) as [[src stmts]|e]; [|exact H].
  assert (EM : forall w0 r1 w1, exec_module ld w0 f px o src stmts = (r1, w1) -> r1 <> Raise LRecursion ->
     exec_module ld' w0 f px o src stmts = (r1, w1)).
  { intros w0 r1 w1 E N1. unfold exec_module in *. destruct (exec_imports ld w0 stmts) as [r2 w2] eqn:E2.
    assert (N2 : r2 <> Raise LRecursion).
    { destruct r2; [discriminate|]. intros Q. injection Q as ->. injection E as <- _. now apply N1. }
    rewrite (exec_imports_more _ _ LD _ _ _ _ E2 N2). exact E. }
  destruct px; cbn zeta in *.
  - destruct (exec_module ld _ f true o src stmts) as [r1 w1] eqn:E.
    assert (N1 : r1 <> Raise LRecursion).
    { destruct r1; [discriminate|]. injection H as <- _. intros Q. injection Q as ->. now apply N. }
    rewrite (EM _ _ _ E N1). exact H.
  - destruct (exec_module ld _ f false o src stmts) as [r1 w1] eqn:E.
    assert (N1 : r1 <> Raise LRecursion).
    { destruct r1; [discriminate|]. injection H as <- _. intros Q. injection Q as ->. now apply N. }
    rewrite (EM _ _ _ E N1). exact H.
Qed.
Lemma load_more : forall n n' w a pyx o r w', (n <= n')%nat -> load_schema n w a pyx o = (r, w') ->
  r <> Raise LRecursion -> load_schema n' w a pyx o = (r, w').
Proof.
  induction n as [|n IH]; intros n' w a pyx o r w' Le H N.
  { injection H as <- <-. congruence. }
  destruct n' as [|n']; [lia|]. cbn [load_schema] in *.
  destruct (getpyx w pyx) as [px|]; [|exact H]. destruct (get_filename w a) as [f|]; [|exact H].
  destruct (lookup f (w_mods w)); [exact H|].
  match type of H with (match compile_file ?l _ _ _ _ with _ => _ end) = _ => set (ld := l) in H end.
  match goal with |- (match compile_file ?l _ _ _ _ with _ => _ end) = _ => set (ld' := l) end.
  destruct (compile_file ld w f px o) as [r1 w1] eqn:E.
  assert (N1 : r1 <> Raise LRecursion).
  { destruct r1; [discriminate|]. injection H as <- _. intros Q. injection Q as ->. now apply N. }
  rewrite (compile_file_more ld ld') with (r := r1) (w' := w1); [exact H| |exact E|exact N1].
  intros w2 n2 r2 w2' H2 N2. unfold ld', ld in *. eapply IH; [lia|exact H2|exact N2].
Qed.

(** *** a loadable file loads, in Python mode *)
Lemma imports_load (stmts : list (str * str)) : forall w1,
  (forall name n, In (name, n) stmts -> exists g, get_filename w1 (by_importname n) = Ret g /\
      forall w2, ext w1 w2 -> exists fuel m w3,
        load_schema fuel w2 (by_importname n) PFalse None = (Ret m, w3)) ->
  exists fuel refs w3,
    exec_imports (fun w' n => load_schema fuel w' (by_importname n) PFalse None) w1 stmts = (Ret refs, w3).
Proof.
  induction stmts as [|(name, n) l IH]; intros w1 H.
  - exists O, [], w1. reflexivity.
  - destruct (H name n (or_introl eq_refl)) as (g & Gg & L).
    destruct (L w1 (ext_refl _)) as (f1 & m & w2 & E1).
    pose proof (load_spec _ _ _ _ _ _ _ E1) as (X1 & _).
    destruct (IH w2) as (f2 & refs & w3 & E2).
    { intros nm n' I. destruct (H nm n' (or_intror I)) as (g' & Gg' & L'). exists g'.
      split; [rewrite <- (get_filename_same w1 w2) by apply X1; exact Gg'|].
      intros w4 X4. apply L'. eapply ext_trans; eassumption. }
    exists (Nat.max f1 f2), ((name, m) :: refs), w3. cbn [exec_imports].
    rewrite (load_more f1 _ _ _ _ _ _ _ (Nat.le_max_l _ _) E1) by discriminate.
    erewrite (exec_imports_more (fun w' n => load_schema f2 w' (by_importname n) PFalse None)); [| |exact E2|discriminate].
    + reflexivity.
    + intros w4 n4 r4 w4' H4 N4. eapply load_more; [apply Nat.le_max_r|exact H4|exact N4].
Qed.

Lemma loadable_loads w : forall f o, loadable w f o -> forall w1 a, ext w w1 -> get_filename w1 a = Ret f ->
  exists fuel m w2, load_schema fuel w1 a PFalse o = (Ret m, w2).
Proof.
  fix IH 3. intros f o L w1 a X G.
  destruct (lookup f (w_mods w1)) as [m|] eqn:Lk.
  { exists 1%nat, m, w1. cbn [load_schema]. change (getpyx w1 PFalse) with (@Ret bool false). rewrite G, Lk. reflexivity. }
  destruct L as [f o C|f o src stmts Ge Sx A].
  { exfalso. apply (keeps_cached w w1) in C; [|apply X]. now apply C. }
  assert (S1 : same w w1) by apply X.
  destruct (imports_load stmts w1) as (fuel & refs & w3 & E).
  { intros name n I. destruct (generate_stmts _ _ _ _ _ _ Ge) as (I1 & _).
    destruct (A n (I1 _ _ I)) as (g & Gg & Lg). exists g.
    split; [rewrite <- (get_filename_same w w1) by exact S1; exact Gg|].
    intros w2 X2. apply (IH g None Lg w2 (by_importname n)); [eapply ext_trans; eassumption|].
    rewrite <- (get_filename_same w w2); [exact Gg|]. eapply same_trans; [exact S1|apply X2]. }
  exists (S fuel). cbn [load_schema]. change (getpyx w1 PFalse) with (@Ret bool false). cbv iota beta. rewrite G, Lk.
  unfold compile_file. rewrite <- (generate_same w w1) by exact S1. rewrite Ge.
  unfold exec_module. rewrite E, Sx. cbn [alloc]. eexists _, _. reflexivity.
Qed.

Theorem load_exact w a o f : get_filename w a = Ret f ->
  (exists fuel m w1, load_schema fuel w a PFalse o = (Ret m, w1)) <-> loadable w f o.
Proof.
  intros G. split.
  - intros (fuel & m & w1 & H). destruct (lookup f (w_mods w)) as [k|] eqn:Lk.
    + apply loadable_cached. unfold cached. congruence.
    + eapply load_fresh; eassumption.
  - intros L. eapply loadable_loads; [exact L|apply ext_refl|exact G].
Qed.

Theorem load_pyx_sound fuel w a pyx o m w1 f : get_filename w a = Ret f ->
  load_schema fuel w a pyx o = (Ret m, w1) -> loadable w f o.
Proof.
  intros G H. destruct (lookup f (w_mods w)) as [k|] eqn:Lk.
  - apply loadable_cached. unfold cached. congruence.
  - eapply load_fresh; eassumption.
Qed.

(** a file that depends on itself through files not loaded yet never loads *)
Inductive cycle (w : world) : path -> path -> Prop :=
| cycle_one f g : ~ cached w f -> depends w f g -> cycle w f g
| cycle_more f g h : ~ cached w f -> depends w f g -> cycle w g h -> cycle w f h.
Lemma cycle_reach w f g : cycle w f g -> ~ cached w g -> exists h, depends w f h /\ reach w h g.
Proof.
  induction 1 as [f g C D|f g h C D Cy IH]; intros N.
  - exists g. split; [exact D|]. now apply reach_here.
  - destruct (IH N) as (k & Dk & R). exists g. split; [exact D|]. eapply reach_dep; [|exact Dk|exact R].
    destruct Cy; assumption.
Qed.
Theorem cycle_never w f a pyx o fuel : cycle w f f -> get_filename w a = Ret f ->
  forall m w1, load_schema fuel w a pyx o <> (Ret m, w1).
Proof.
  intros Cy G m w1 H. pose proof (load_pyx_sound _ _ _ _ _ _ _ _ G H) as L.
  assert (C : ~ cached w f) by (inversion Cy; assumption).
  destruct (cycle_reach _ _ _ Cy C) as (h & D & R). eapply no_cycle; eassumption.
Qed.

(** *** naming a file *)
Lemma find_file_first fs dirs n f : find_file fs dirs n = Ret f <->
  exists l d r, dirs = l ++ d :: r /\ f = join d n /\ fs f <> None /\ Forall (fun d' => fs (join d' n) = None) l.
Proof.
  induction dirs as [|d dirs IH]; cbn [find_file].
  - split; [discriminate|]. intros (l & d & r & E & _). destruct l; discriminate.
  - destruct (fs (join d n)) eqn:Fd.
    + split.
      * intros H. injection H as <-. exists [], d, dirs. rewrite Fd. repeat split; [discriminate|constructor].
      * intros (l & d' & r & E & -> & N & F). destruct l as [|x l]; [injection E as <- <-; reflexivity|].
        injection E as <- ->. inversion F. congruence.
    + rewrite IH. split.
      * intros (l & d' & r & -> & -> & N & F). exists (d :: l), d', r. repeat split; [exact N|]. constructor; assumption.
      * intros (l & d' & r & E & -> & N & F). destruct l as [|x l]; injection E as <- ->; [congruence|].
        exists l, d', r. repeat split; [exact N|]. now inversion F.
Qed.

Lemma join_slash d n : join d (slash :: n) = join d n.
Proof. unfold join. cbn [Loader.split]. rewrite Z.eqb_refl. reflexivity. Qed.
Lemma find_file_slash fs dirs n : find_file fs dirs (slash :: n) = find_file fs dirs n.
Proof. induction dirs as [|d r IH]; [reflexivity|]. cbn [find_file]. now rewrite join_slash, IH. Qed.

(** modname 'a.b.c' and importname '/a/b/c.capnp' name the same file *)
Theorem modname_importname w modname :
  get_filename w (by_modname modname) =
  get_filename w (by_importname (slash :: replace dot [slash] modname ++ lit ".capnp")).
Proof. cbn [get_filename by_modname by_importname]. rewrite Z.eqb_refl. now rewrite find_file_slash. Qed.

Theorem one_argument w a f : get_filename w a = Ret f ->
  exists n, a = by_modname n \/ a = by_importname (slash :: n) \/ a = by_filename n.
Proof.
  destruct a as [[m|] [i|] [x|]]; cbn; try discriminate.
  - intros _. exists m. now left.
  - destruct i as [|c i]; [discriminate|]. destruct (c =? slash) eqn:E; [|discriminate].
    intros _. exists i. right; left. unfold by_importname. do 3 f_equal. lia.
  - intros _. exists x. auto.
Qed.
