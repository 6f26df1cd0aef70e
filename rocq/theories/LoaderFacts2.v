(** load_schema in pyx mode; the names of the imports *)
From Coq Require Import Strings.String Strings.Ascii.
From Verif Require Import Base Case CaseFacts Options Loader LoaderFacts.
From Coq Require Import Lists.List.
Local Notation length := Datatypes.length.

Lemma existsb_In n l : existsb (str_eqb n) l = true <-> In n l.
Proof.
  rewrite existsb_exists. split.
  - intros (x & I & E). apply str_eqb_spec in E. now subst.
  - intros I. exists n. split; [exact I|now apply str_eqb_spec].
Qed.
Lemma existsb_not n l : ~ In n l -> existsb (str_eqb n) l = false.
Proof. intros N. destruct (existsb _ l) eqn:E; [|reflexivity]. apply existsb_In in E. contradiction. Qed.

Definition sysnames (busy : list str) : list str :=
  flat_map (fun s => [lit "capnpy.ext." ++ s; s ++ lit "_tmp"]) busy.

Lemma ident_no_dot s : ident s = true -> ~ In dot s.
Proof.
  destruct s as [|c s]; [discriminate|]. intros H I. unfold ident in H. apply andb_prop in H as (_ & H).
  rewrite forallb_forall in H. specialize (H _ I). vm_compute in H. discriminate.
Qed.
Lemma ext_has_dot s : In dot (lit "capnpy.ext." ++ s).
Proof. apply in_or_app. left. vm_compute. tauto. Qed.

Lemma tmp_not_busy f busy : ident (tmpname f) = true -> ~ In (modname_of f) busy -> ~ In (tmpname f) (sysnames busy).
Proof.
  intros D N I. apply in_flat_map in I as (s & J & [E|[E|[]]]).
  - apply (ident_no_dot _ D). rewrite <- E. apply ext_has_dot.
  - apply app_inv_tail in E. now subst.
Qed.
Lemma ext_not_busy f busy : Forall (fun s => ident (s ++ lit "_tmp") = true) busy ->
  ~ In (modname_of f) busy -> ~ In (extname f) (sysnames busy).
Proof.
  intros D N I. apply in_flat_map in I as (s & J & [E|[E|[]]]).
  - apply app_inv_head in E. now subst.
  - rewrite Forall_forall in D. apply (ident_no_dot _ (D s J)). rewrite E. apply ext_has_dot.
Qed.

Lemma generate_ident w f o r : generate w f true o = Ret r -> ident (tmpname f) = true.
Proof.
  unfold generate. destruct (w_fs w f) as [s|]; [|discriminate].
  destruct (negb (src_capnp s)); [discriminate|]. destruct (negb (forallb ascii f)); [discriminate|].
  destruct (declare_imports [] (src_imports s)) as [l|]; [|discriminate].
  destruct (negb (src_gen s)); [discriminate|]. cbn zeta.
  match goal with |- context [?A && ?B && (negb true || ident (tmpname f))] => set (AB := A && B) end.
  destruct (AB && (negb true || ident (tmpname f))) eqn:E; [|discriminate].
  intros _. apply andb_prop in E as (_ & E). exact E.
Qed.

Lemma str_eqb_refl n : str_eqb n n = true. Proof. now apply str_eqb_spec. Qed.
Lemma sys_add_new w n : ~ In n (w_sys w) -> sys_add w n = set_sys w (n :: w_sys w).
Proof. intros N. unfold sys_add. now rewrite existsb_not. Qed.
Lemma sys_del_head w n l : w_sys w = n :: l -> sys_del w n = (Ret tt, set_sys w l).
Proof. intros E. unfold sys_del. rewrite E. cbn [existsb remove1]. rewrite str_eqb_refl. reflexivity. Qed.

Definition busy_ok (w w1 : world) (busy : list str) : Prop :=
  ext w w1 /\ w_PYX w = true /\ w_sys w1 = sysnames busy ++ w_sys w /\
  Forall (fun s => ident (s ++ lit "_tmp") = true) busy.

Lemma imports_load_pyx w busy (stmts : list (str * str)) : forall w1, busy_ok w w1 busy ->
  (forall name n, In (name, n) stmts ->
      forall w2, busy_ok w w2 busy -> exists fuel m w3,
        load_schema fuel w2 (by_importname n) PTrue None = (Ret m, w3) /\ w_sys w3 = w_sys w2) ->
  exists fuel refs w3,
    exec_imports (fun w' n => load_schema fuel w' (by_importname n) PTrue None) w1 stmts = (Ret refs, w3) /\
    w_sys w3 = w_sys w1.
Proof.
  induction stmts as [|(name, n) l IH]; intros w1 B H.
  - exists O, [], w1. split; reflexivity.
  - destruct (H name n (or_introl eq_refl) w1 B) as (f1 & m & w2 & E1 & Y1).
    pose proof (load_spec _ _ _ _ _ _ _ E1) as (X1 & _).
    assert (B2 : busy_ok w w2 busy).
    { destruct B as (X & P & Sy & F). split; [eapply ext_trans; eassumption|]. split; [exact P|].
      split; [congruence|exact F]. }
    destruct (IH w2 B2) as (f2 & refs & w3 & E2 & Y2).
    { intros nm n' I. apply (H nm n' (or_intror I)). }
    exists (Nat.max f1 f2), ((name, m) :: refs), w3. cbn [exec_imports].
    rewrite (load_more f1 _ _ _ _ _ _ _ (Nat.le_max_l _ _) E1) by discriminate.
    erewrite (exec_imports_more (fun w' n => load_schema f2 w' (by_importname n) PTrue None)); [| |exact E2|discriminate].
    + split; [reflexivity|congruence].
    + intros w4 n4 r4 w4' H4 N4. eapply load_more; [apply Nat.le_max_r|exact H4|exact N4].
Qed.

Lemma set_sys_sys w l : w_sys (set_sys w l) = l. Proof. reflexivity. Qed.
Lemma set_sys_ext w l : ext w (set_sys w l).
Proof. split; [repeat split|]. split; [intros p m H; exact H|]. exists []. cbn. now rewrite app_nil_r. Qed.

Lemma loadable_loads_pyx w : forall busy f o, loadable_pyx w busy f o ->
  forall w1 a pyx, busy_ok w w1 busy -> get_filename w1 a = Ret f -> getpyx w1 pyx = Ret true ->
  exists fuel m w2, load_schema fuel w1 a pyx o = (Ret m, w2) /\ w_sys w2 = w_sys w1.
Proof.
  fix IH 4. intros busy f o L w1 a pyx B G P.
  destruct (lookup f (w_mods w1)) as [m|] eqn:Lk.
  { exists 1%nat, m, w1. cbn [load_schema]. rewrite P, G, Lk. split; reflexivity. }
  destruct L as [busy f o C|busy f o src stmts Ge Sx Nb Nt Ne A].
  { exfalso. apply (keeps_cached w w1) in C; [|apply B]. now apply C. }
  destruct B as (X & PX & Sy & Fb). assert (S1 : same w w1) by apply X.
  pose proof (generate_ident _ _ _ _ Ge) as Id.
  set (wa := set_sys w1 (tmpname f :: w_sys w1)).
  assert (E0 : sys_add w1 (tmpname f) = wa).
  { apply sys_add_new. rewrite Sy. intros I. apply in_app_or in I as [I|I]; [|contradiction].
    eapply tmp_not_busy; eassumption. }
  set (w0 := set_sys w1 (extname f :: tmpname f :: w_sys w1)).
  assert (E1 : sys_add wa (extname f) = w0).
  { rewrite sys_add_new; [reflexivity|]. unfold wa. rewrite set_sys_sys. intros [E|I].
    - apply (ident_no_dot _ Id). rewrite E. apply ext_has_dot.
    - rewrite Sy in I. apply in_app_or in I as [I|I]; [|contradiction]. eapply ext_not_busy; eassumption. }
  assert (B0 : busy_ok w w0 (modname_of f :: busy)).
  { split; [eapply ext_trans; [exact X|apply set_sys_ext]|]. split; [exact PX|].
    split; [|constructor; [exact Id|exact Fb]].
    unfold w0. rewrite set_sys_sys, Sy. reflexivity. }
  destruct (imports_load_pyx w (modname_of f :: busy) stmts w0 B0) as (fuel & refs & w3 & E & Y).
  { intros name n I w2 B2. destruct (generate_stmts _ _ _ _ _ _ Ge) as (I1 & _).
    destruct (A n (I1 _ _ I)) as (g & Gg & Lg). apply (IH _ g None Lg w2 (by_importname n) PTrue B2).
    - rewrite <- (get_filename_same w w2); [exact Gg|]. apply B2.
    - rewrite <- (getpyx_same w w2) by apply B2. unfold getpyx. now rewrite PX. }
  exists (S fuel). cbn [load_schema]. rewrite P. cbv iota beta. rewrite G, Lk.
  unfold compile_file. rewrite <- (generate_same w w1) by exact S1. rewrite Ge. cbn zeta. rewrite E0, E1.
  unfold exec_module. rewrite E, Sx.
  unfold w0 in Y. rewrite set_sys_sys in Y.
  rewrite (sys_del_head _ _ _ Y). erewrite (sys_del_head _ (tmpname f)) by reflexivity.
  cbn [alloc]. eexists _, _. split; reflexivity.
Qed.

Theorem load_pyx w a pyx o f : get_filename w a = Ret f -> getpyx w pyx = Ret true -> loadable_pyx w [] f o ->
  exists fuel m w1, load_schema fuel w a pyx o = (Ret m, w1) /\ w_sys w1 = w_sys w.
Proof.
  intros G P L. eapply loadable_loads_pyx; [exact L| |exact G|exact P].
  split; [apply ext_refl|]. split; [|split; [reflexivity|constructor]].
  unfold getpyx in P. destruct (w_PYX w); [reflexivity|]. rewrite andb_true_r in P.
  match type of P with (if ?b then _ else _) = _ => destruct b end; [discriminate|injection P; auto].
Qed.

(** in Python mode sys.modules is never touched *)
Lemma load_py_sys : forall fuel w a pyx o r w', getpyx w pyx = Ret false ->
  load_schema fuel w a pyx o = (r, w') -> w_sys w' = w_sys w.
Proof.
  induction fuel as [|fuel IH]; intros w a pyx o r w' P H; [injection H as _ <-; reflexivity|].
  cbn [load_schema] in H. rewrite P in H. destruct (get_filename w a) as [f|]; [|injection H as _ <-; reflexivity].
  destruct (lookup f (w_mods w)); [injection H as _ <-; reflexivity|].
  match type of H with (match compile_file ?l _ _ _ _ with _ => _ end) = _ => set (ld := l) in H end.
  assert (LD : forall w n r w', ld w n = (r, w') -> w_sys w' = w_sys w).
  { intros w2 n r2 w2' H2. eapply IH; [|exact H2]. reflexivity. }
  assert (EI : forall stmts w r w', exec_imports ld w stmts = (r, w') -> w_sys w' = w_sys w).
  { clear H. induction stmts as [|(nm, n) l IHl]; intros w2 r2 w2' H2; [injection H2 as _ <-; reflexivity|].
    cbn [exec_imports] in H2. destruct (ld w2 n) as [[m|e] w3] eqn:E3; pose proof (LD _ _ _ _ E3) as Q.
    - destruct (exec_imports ld w3 l) as [r4 w4] eqn:E4. pose proof (IHl _ _ _ E4) as Q4.
      destruct r4; injection H2 as _ <-; congruence.
    - injection H2 as _ <-; congruence. }
  unfold compile_file in H. destruct (generate w f false o) as [[src stmts]|]; [|injection H as _ <-; reflexivity].
  unfold exec_module in H. destruct (exec_imports ld w stmts) as [r1 w1] eqn:E1. pose proof (EI _ _ _ _ E1) as Q.
  destruct r1 as [refs|]; [destruct (src_exec src)|]; injection H as _ <-; cbn [set_mods w_sys]; exact Q.
Qed.

(** ** The names of the imports (C52) *)
Lemma register_spec names fname :
  register_import names fname =
  if existsb (fun e => str_eqb (snd e) (import_var fname)) names then Raise LAttribute else Ret (import_var fname).
Proof. reflexivity. Qed.

Lemma declare_spec : forall imps names,
  (forall i fname, In i imps -> imp_node i = Some fname -> ascii fname = true /\ ascii (imp_name i) = true) ->
  (exists l, declare_imports names imps = Ret l) <->
  NoDup (map (fun u => import_var (fst u)) (used_imports imps)) /\
  (forall u, In u (used_imports imps) -> ~ In (import_var (fst u)) (map snd names)).
Proof.
  induction imps as [|i r IH]; intros names A.
  { split; [|exists []; reflexivity]. intros _. split; [constructor|intros u []]. }
  cbn [declare_imports used_imports flat_map]. destruct (imp_node i) as [fname|] eqn:Ni.
  2: { cbn [app]. apply IH. intros j g J. apply A. now right. }
  destruct (A i fname (or_introl eq_refl) Ni) as (A1 & A2). rewrite A1, A2. cbn [negb app map fst].
  rewrite register_spec.
  assert (Ar : forall j g, In j r -> imp_node j = Some g -> ascii g = true /\ ascii (imp_name j) = true)
    by (intros j g J; apply A; now right).
  destruct (existsb (fun e => str_eqb (snd e) (import_var fname)) names) eqn:E.
  - split; [intros (l & H); discriminate|]. intros (_ & N). exfalso. apply (N (fname, imp_name i)); [now left|].
    apply existsb_exists in E as (e & I & Q). apply str_eqb_spec in Q. cbn [fst]. rewrite <- Q. now apply in_map.
  - specialize (IH ((fname, import_var fname) :: names) Ar). cbn [map snd] in IH.
    assert (N0 : ~ In (import_var fname) (map snd names)).
    { intros I. apply in_map_iff in I as (e & Q & I). assert (existsb (fun e => str_eqb (snd e) (import_var fname)) names = true);
        [|congruence]. apply existsb_exists. exists e. split; [exact I|now apply str_eqb_spec]. }
    assert (Eq : (exists l, (match declare_imports ((fname, import_var fname) :: names) r with
              | Raise e => Raise e
              | Ret l => if str_eqb (imp_name i) (lit "/capnp/c++.capnp") then Ret l
                         else Ret ((import_var fname, imp_name i) :: l) end) = Ret l) <->
            exists l, declare_imports ((fname, import_var fname) :: names) r = Ret l).
    { destruct (declare_imports _ r); [|reflexivity]. split; intros _; [eauto|]. destruct (str_eqb _ _); eauto. }
    rewrite Eq, IH. clear Eq IH. split.
    + intros (ND & N). split.
      * constructor; [|exact ND]. intros I. apply in_map_iff in I as (u & Q & I). apply (N u I). left. now rewrite Q.
      * intros u [<-|I]; [exact N0|]. intros J. apply (N u I). now right.
    + intros (ND & N). inversion ND as [|x l Nx ND' E1]. subst. split; [exact ND'|].
      intros u I [Q|J]; [|apply (N u (or_intror I) J)]. apply Nx. rewrite Q.
      apply (in_map (fun u => import_var (fst u))) in I. exact I.
Qed.

Lemma declare_values : forall imps names l, declare_imports names imps = Ret l ->
  l = map (fun u => (import_var (fst u), snd u))
        (filter (fun u => negb (str_eqb (snd u) (lit "/capnp/c++.capnp"))) (used_imports imps)) /\
  NoDup (map fst l) /\ (forall x, In x (map fst l) -> ~ In x (map snd names)).
Proof.
  induction imps as [|i r IH]; intros names l H.
  { injection H as <-. split; [reflexivity|]. split; [constructor|intros x []]. }
  cbn [declare_imports used_imports flat_map] in *. destruct (imp_node i) as [fname|] eqn:Ni; [|apply IH, H].
  destruct (negb (ascii fname)); [discriminate|]. rewrite register_spec in H.
  destruct (existsb _ names) eqn:E; [discriminate|]. destruct (negb (ascii _)); [discriminate|].
  destruct (declare_imports _ r) as [l'|] eqn:D; [|discriminate].
  destruct (IH _ _ D) as (V & ND & N). cbn [app filter snd].
  assert (N0 : ~ In (import_var fname) (map snd names)).
  { intros I. apply in_map_iff in I as (e & Q & I). assert (existsb (fun e => str_eqb (snd e) (import_var fname)) names = true);
      [|congruence]. apply existsb_exists. exists e. split; [exact I|now apply str_eqb_spec]. }
  destruct (str_eqb (imp_name i) _); injection H as <-; cbn [negb map fst].
  - split; [exact V|]. split; [exact ND|]. intros x I J. apply (N x I). now right.
  - split; [now rewrite V|]. split.
    + constructor; [|exact ND]. intros I. apply (N _ I). now left.
    + intros x [<-|I] J; [contradiction|]. apply (N x I). now right.
Qed.

(** two files clash exactly if their base names agree up to '+' / PLUS *)
Lemma import_var_eq a b : import_var a = import_var b <->
  replace 43 (lit "PLUS") (purebasename (local [] a)) = replace 43 (lit "PLUS") (purebasename (local [] b)).
Proof.
  unfold import_var. split; [|intros ->; reflexivity]. intros E. apply app_inv_head, app_inv_tail in E. exact E.
Qed.

Lemma replace_plus_chars s : forallb ident_char (replace 43 (lit "PLUS") s) =
  forallb (fun c => ident_char c || (c =? 43)) s.
Proof.
  induction s as [|c s IH]; [reflexivity|]. cbn [replace]. rewrite forallb_app, IH. cbn [forallb].
  destruct (c =? 43) eqn:E; [rewrite orb_true_r; reflexivity|]. rewrite orb_false_r. cbn [forallb].
  now rewrite andb_true_r.
Qed.
Theorem import_var_ident fname : ident (import_var fname) = true <->
  forall c, In c (purebasename (local [] fname)) -> is_alnum c = true \/ c = underscore \/ c = 43.
Proof.
  unfold import_var. remember (purebasename (local [] fname)) as b. clear.
  change (lit "_" ++ replace 43 (lit "PLUS") b ++ lit "_capnp") with (underscore :: (replace 43 (lit "PLUS") b ++ lit "_capnp")).
  unfold ident. change (negb (is_digit underscore)) with true. rewrite andb_true_l.
  cbn [forallb]. change (ident_char underscore) with true. rewrite andb_true_l, forallb_app, replace_plus_chars.
  change (forallb ident_char (lit "_capnp")) with true. rewrite andb_true_r, forallb_forall.
  unfold ident_char. split; intros H c I; specialize (H c I).
  - apply orb_prop in H as [H|H]; [apply orb_prop in H as [H|H]|]; [auto| |]; right; [left|right]; lia.
  - destruct H as [->|[->| ->]]; reflexivity.
Qed.
