(** C69: extensions of generated classes and modules. *)
From Coq Require Import Strings.String Strings.Ascii.
From Verif Require Import Base Case CaseFacts Options Loader Names NamesFacts Extend.
From Coq Require Import Lia Lists.List.
Local Notation length := Datatypes.length.
Local Open Scope list_scope.
Local Open Scope Z_scope.

(** ** Specification *)

(** the attributes that `@C.__extend__ class ...` is about *)
Definition copied (n : str) : Prop :=
  n <> lit "__dict__" /\ n <> lit "__doc__" /\ n <> lit "__module__" /\ n <> lit "__weakref__".

(** the special methods of Python 3 which Python 2 did not have *)
Definition py3_only : list str := map lit
  ["__next__"; "__await__"; "__aiter__"; "__anext__"; "__bool__"; "__matmul__"; "__rmatmul__"; "__imatmul__"]%string.

(** ** Facts *)

Lemma mem_In n l : mem n l = true <-> In n l.
Proof.
  unfold mem. rewrite existsb_exists. split.
  - intros (x & I & E). apply str_eqb_spec in E. now subst.
  - intros I. exists n. split; auto. now apply str_eqb_spec.
Qed.

Lemma mem_copied n : mem n not_copied = false <-> copied n.
Proof.
  unfold copied. split.
  - intros H. repeat split; intros ->; discriminate H.
  - intros (A & B & C & D). destruct (mem n not_copied) eqn:E; auto. apply mem_In in E.
    cbn [not_copied map In] in E. intuition congruence.
Qed.

Lemma eqb_refl s : str_eqb s s = true.
Proof. now apply str_eqb_spec. Qed.
Lemma eqb_neq a b : a <> b -> str_eqb a b = false.
Proof. intros H. destruct (str_eqb a b) eqn:E; auto. apply str_eqb_spec in E. contradiction. Qed.

Lemma get_put n v d m : get m (put n v d) = if str_eqb n m then Some v else get m d.
Proof.
  unfold get. induction d as [|[k w] d IH]; cbn [put find fst snd].
  - destruct (str_eqb n m); auto.
  - destruct (str_eqb k n) eqn:E; cbn [find fst snd].
    + apply str_eqb_spec in E. subst. destruct (str_eqb n m); auto.
    + destruct (str_eqb k m) eqn:F.
      * apply str_eqb_spec in F. subst. now rewrite (eqb_neq n m)
          by (intros ->; rewrite eqb_refl in E; discriminate).
      * apply IH.
Qed.

(** setting a list of attributes which are all accepted, one after the other *)
Lemma extend_step hack c new
  (sl : str -> option Z -> Z -> option Z) :
  NoDup (map fst new) ->
  (forall c' n v, heap c' = heap c -> In n (map fst new) -> copied n ->
     exists c'', magic_setattr hack c' n v = Ok c'' /\ heap c'' = heap c' /\
       (forall m, attribute c'' m = if str_eqb n m then Some v else attribute c' m) /\
       (forall m, operator c'' m = if str_eqb n m then sl n (operator c' m) v else operator c' m)) ->
  exists c', extend hack c new = (c', Ok tt) /\ heap c' = heap c /\
    (forall n v, In (n, v) new -> copied n -> attribute c' n = Some v /\ operator c' n = sl n (operator c n) v) /\
    (forall n, ~ In n (map fst new) \/ ~ copied n -> attribute c' n = attribute c n /\ operator c' n = operator c n).
Proof.
  revert c. induction new as [|[k w] new IH]; intros c N S.
  - exists c. cbn. repeat split; auto; contradiction.
  - cbn [map fst] in N. inversion N as [|? ? N1 N2]; subst. cbn [extend].
    destruct (mem k not_copied) eqn:K.
    + destruct (IH c N2) as (c' & E & Hh & A & B).
      { intros c0 n v H0 I. apply S; auto. cbn. auto. }
      exists c'. split; [auto|]. split; [auto|].
      assert (Kc : ~ copied k) by (intros X; apply mem_copied in X; congruence). split.
      * intros n v [I | I] C; [inversion I; subst; contradiction|auto].
      * intros n [H | H]; apply B; auto. left. cbn in H. tauto.
    + apply mem_copied in K.
      destruct (S c k w eq_refl) as (c1 & E1 & H1 & A1 & B1); [now left|auto|].
      rewrite E1. destruct (IH c1 N2) as (c' & E & Hh & A & B).
      { intros c0 n v H0 I. apply S; [congruence|cbn; auto]. }
      exists c'. split; [auto|]. split; [congruence|]. split.
      * intros n v [I | I] C.
        -- inversion I; subst. destruct (B n) as [B2 B3]; [auto|].
           rewrite B2, B3, A1, B1, eqb_refl. auto.
        -- destruct (A n v I C) as [X Y]. split; [auto|]. rewrite Y, B1.
           rewrite (eqb_neq k n); auto. intros ->. apply N1. now apply (in_map fst) in I.
      * intros n H.
        assert (Nk : n <> k) by (intros ->; destruct H as [H | H]; [apply H; now left|contradiction]).
        destruct (B n) as [B2 B3]; [destruct H as [H|H]; [left; cbn in H; tauto|auto]|].
        rewrite B2, B3, A1, B1, (eqb_neq k n) by congruence. auto.
Qed.

(** ** Extending a class *)

(** A Python class: every attribute of the new class body is there afterwards,
    operators use the special methods among them, and nothing else changed. *)
Theorem C69_extend_python : forall hack c new,
  heap c = true -> NoDup (map fst new) ->
  exists c', extend hack c new = (c', Ok tt) /\
    (forall n v, In (n, v) new -> copied n ->
       attribute c' n = Some v /\ (In n special -> operator c' n = Some v)) /\
    (forall n, ~ In n (map fst new) \/ ~ copied n ->
       attribute c' n = attribute c n /\ operator c' n = operator c n).
Proof.
  intros hack c new H N.
  destruct (extend_step hack c new (fun n o v => if mem n special then Some v else o) N)
    as (c' & E & _ & A & B).
  { intros c0 n v H0 _ C. exists (type_setattr c0 n v). split; [unfold magic_setattr; now rewrite H0, H|].
    split; [reflexivity|]. unfold attribute, operator, type_setattr. cbn [cdict cslots].
    split; intros m; [apply get_put|].
    destruct (mem n special); [apply get_put|]. destruct (str_eqb n m); auto. }
  exists c'. split; [auto|]. split; [|exact B]. intros n v I C. destruct (A n v I C) as [X Y]. split; auto.
  intros S. apply mem_In in S. now rewrite S in Y.
Qed.
Print Assumptions C69_extend_python.

(** A Cython class: attributes with ordinary names take effect. *)
Theorem C69_extend_cython : forall c new,
  heap c = false -> NoDup (map fst new) ->
  (forall n, In n (map fst new) -> copied n -> ~ In n SLOTS) ->
  exists c', extend true c new = (c', Ok tt) /\
    (forall n v, In (n, v) new -> copied n -> attribute c' n = Some v) /\
    (forall n, ~ In n (map fst new) \/ ~ copied n -> attribute c' n = attribute c n) /\
    (forall n, operator c' n = operator c n).
Proof.
  intros c new H N S.
  destruct (extend_step true c new (fun _ o _ => o) N) as (c' & E & _ & A & B).
  { intros c0 n v H0 I C. unfold magic_setattr. rewrite H0, H. unfold setattr_builtin.
    destruct (mem n SLOTS) eqn:M; [apply mem_In in M; exfalso; apply (S n I C M)|].
    eexists. split; [reflexivity|]. split; [cbn [heap]; congruence|]. unfold attribute, operator. cbn [cdict cslots].
    split; intros m; [apply get_put|]. destruct (str_eqb n m); auto. }
  exists c'. split; [auto|]. split; [intros n v I C; apply (A n v I C)|].
  split; [intros n X; apply (B n X)|].
  intros n. destruct (in_dec (list_eq_dec Z.eq_dec) n (map fst new)) as [I | I]; [|apply B; auto].
  destruct (mem n not_copied) eqn:K.
  - apply B. right. intros X. apply mem_copied in X. congruence.
  - apply mem_copied in K. apply in_map_iff in I. destruct I as ([n' v] & <- & I). now apply (A n' v).
Qed.
Print Assumptions C69_extend_cython.

(** A Cython class: a special method that existed in Python 2 is refused with
    TypeError (also among other attributes), and so is everything if the
    helper extension was not compiled. *)
Theorem C69_extend_refused : forall hack c new n,
  heap c = false -> In n (map fst new) -> copied n -> In n SLOTS \/ hack = false ->
  exists c', extend hack c new = (c', Err TypeError) /\ (forall m, operator c' m = operator c m).
Proof.
  intros hack c new n H I C R. revert c H. induction new as [|[k w] new IH]; [destruct I|]; intros c H.
  cbn [extend]. cbn [map fst In] in I.
  destruct (list_eq_dec Z.eq_dec k n) as [-> | Nk].
  - rewrite (proj2 (mem_copied n) C). unfold magic_setattr. rewrite H.
    destruct hack; [|eauto]. unfold setattr_builtin. destruct R as [R | R]; [|discriminate].
    apply mem_In in R. rewrite R. eauto.
  - destruct I as [I | I]; [contradiction|].
    destruct (mem k not_copied); [now apply IH|].
    unfold magic_setattr. rewrite H. destruct hack; [|eauto]. unfold setattr_builtin.
    destruct (mem k SLOTS); [eauto|].
    destruct (IH I (mkcls (heap c) (put k w (cdict c)) (cslots c)) H) as (c' & E & O).
    rewrite E. exists c'. auto.
Qed.
Print Assumptions C69_extend_refused.

(** Refuted ("it is not possible to assign __special__ methods this way, so in
    that case a TypeError is raised"): the special methods that Python 3 added
    are accepted, and the operators of the language do not see them. These are
    exactly the ones of [py3_only]. *)
Theorem C69_special_refuted : forall c n v,
  heap c = false -> In n special ->
  (In n py3_only ->
     exists c', extend true c [(n, v)] = (c', Ok tt) /\ attribute c' n = Some v /\ operator c' n = operator c n) /\
  (~ In n py3_only -> extend true c [(n, v)] = (c, Err TypeError)).
Proof.
  intros c n v H S.
  assert (T : forall x, In x special -> mem x not_copied = false /\ (mem x SLOTS = negb (mem x py3_only))).
  { assert (X : forallb (fun x => negb (mem x not_copied) && Bool.eqb (mem x SLOTS) (negb (mem x py3_only))) special = true)
      by (vm_compute; reflexivity).
    rewrite forallb_forall in X. intros x Ix. specialize (X x Ix). apply andb_prop in X. destruct X as [X Y].
    split; [now destruct (mem x not_copied)|]. now apply Bool.eqb_prop in Y. }
  destruct (T n S) as [T1 T2]. cbn [extend]. rewrite T1. unfold magic_setattr. rewrite H.
  unfold setattr_builtin. rewrite T2. split; intros P.
  - apply mem_In in P. rewrite P. cbn [negb]. eexists. split; [reflexivity|].
    unfold attribute, operator. cbn [cdict cslots]. now rewrite get_put, eqb_refl.
  - destruct (mem n py3_only) eqn:E; [apply mem_In in E; contradiction|]. reflexivity.
Qed.
Print Assumptions C69_special_refuted.

(** ** Extending a module *)

(** load_schema on DIR/NAME.EXT: the module gets its definitions, then what
    DIR/NAME_extended.py does to them, if there is such a file; no other file
    matters. *)
Lemma before_dot_app s e : ~ In dot e -> before_dot (s ++ dot :: e) = Some s.
Proof.
  intros H. induction s as [|c s IH]; cbn [app before_dot].
  - assert (X : before_dot e = None).
    { induction e as [|c e IHe]; auto. cbn [before_dot]. cbn [In] in H. rewrite IHe by tauto.
      destruct (Z.eqb_spec c dot); [exfalso; auto|auto]. }
    rewrite X. reflexivity.
  - now rewrite IH.
Qed.

Theorem C69_load_schema : forall fs sys_path dir name e modname defs,
  ~ In dot e ->
  run_module fs sys_path false (dir ++ [name ++ dot :: e]) modname defs =
  match fs (dir ++ [name ++ lit "_extended.py"]) with
  | Some code => code defs
  | None => defs
  end.
Proof.
  intros fs sys_path dir name e modname defs H.
  assert (E : extmod_of (dir ++ [name ++ dot :: e]) = dir ++ [name ++ lit "_extended.py"]).
  { unfold extmod_of, purebasename. rewrite removelast_last, last_last, before_dot_app by auto. reflexivity. }
  unfold run_module, extension_file. rewrite E.
  destruct (fs (dir ++ [name ++ lit "_extended.py"])) eqn:F; auto. now rewrite F.
Qed.
Print Assumptions C69_load_schema.

(** a component of a module name *)
Definition component (s : str) : Prop := s <> [] /\ ~ In dot s /\ ~ In slash s.
(** a.b.c *)
Fixpoint dotted (l : list str) : str :=
  match l with
  | [] => []
  | [x] => x
  | x :: r => x ++ dot :: dotted r
  end.

Lemma replace_app o n a b : replace o n (a ++ b) = replace o n a ++ replace o n b.
Proof. induction a as [|c a IH]; cbn [replace app]; auto. now rewrite IH, app_assoc. Qed.
Lemma replace_none o n a : ~ In o a -> replace o n a = a.
Proof.
  induction a as [|c a IH]; cbn [replace In]; auto. intros H.
  destruct (Z.eqb_spec c o); [exfalso; auto|]. cbn. f_equal. tauto.
Qed.

Lemma split_dotted l x sfx : Forall component l -> component x -> ~ In dot sfx -> ~ In slash sfx ->
  Loader.split slash (replace dot [slash] (dotted (l ++ [x]) ++ sfx) ++ lit ".py") = l ++ [x ++ sfx ++ lit ".py"].
Proof.
  intros L (X1 & X2 & X3) S1 S2. induction l as [|y l IH].
  - cbn [app dotted]. rewrite replace_none by (rewrite in_app_iff; tauto).
    rewrite <- app_assoc. apply split_one. rewrite !in_app_iff. intros [A | [A | A]]; try tauto.
    cbn in A. unfold slash in A. intuition discriminate.
  - inversion L as [|? ? (Y1 & Y2 & Y3) L2]; subst.
    assert (D : dotted ((y :: l) ++ [x]) = y ++ dot :: dotted (l ++ [x])) by (destruct l; reflexivity).
    rewrite D. rewrite <- app_assoc. cbn [app]. rewrite replace_app. rewrite (replace_none _ _ y) by auto.
    cbn [replace]. rewrite Z.eqb_refl. rewrite <- app_assoc. cbn [app].
    rewrite split_app, (split_one slash y) by auto. cbn [app]. f_equal. now apply IH.
Qed.

Lemma normp_app st l : Forall (fun c => c <> [] /\ c <> [dot] /\ c <> [dot; dot]) l ->
  normp st l = rev st ++ l.
Proof.
  revert st. induction l as [|c l IH]; intros st H; cbn [normp]; [now rewrite app_nil_r|].
  inversion H as [|? ? (A & B & C) H2]; subst. rewrite !eqb_neq by auto. cbn [orb].
  rewrite IH by auto. cbn [rev]. now rewrite <- app_assoc.
Qed.

Lemma module_file d l x : Forall component (l ++ [x]) ->
  join d (replace dot [slash] (dotted (l ++ [x]) ++ lit "_extended") ++ lit ".py") =
  d ++ l ++ [x ++ lit "_extended.py"].
Proof.
  intros H. apply Forall_app in H. destruct H as [L X]. inversion X as [|? ? Xc _]; subst.
  unfold join. rewrite split_dotted; auto.
  - rewrite normp_app; [now rewrite rev_involutive|].
    apply Forall_app. split.
    + eapply Forall_impl; [|exact L]. intros c (A & B & _). repeat split; auto; intros ->; apply B; cbn; auto.
    + constructor; [|constructor].
      split; [|split]; intros Y; apply (f_equal (@length Z)) in Y; rewrite !app_length in Y; cbn in Y; lia.
  - cbn. unfold dot. intuition discriminate.
  - cbn. unfold slash. intuition discriminate.
Qed.

(** A standalone module a.b.c: the first directory D of sys.path which has
    D/a/b/c_extended.py provides the extension. *)
Theorem C69_standalone : forall fs pre d post pkg name schema defs code,
  Forall component (pkg ++ [name]) ->
  (forall e, In e pre -> fs (e ++ pkg ++ [name ++ lit "_extended.py"]) = None) ->
  fs (d ++ pkg ++ [name ++ lit "_extended.py"]) = Some code ->
  run_module fs (pre ++ d :: post) true schema (dotted (pkg ++ [name])) defs = code defs.
Proof.
  intros fs pre d post pkg name schema defs code C N D.
  assert (F : find_module fs (pre ++ d :: post) (dotted (pkg ++ [name]) ++ lit "_extended") =
              Some (d ++ pkg ++ [name ++ lit "_extended.py"])).
  { induction pre as [|e pre IH]; cbn [app find_module].
    - rewrite module_file by auto. now rewrite D.
    - rewrite module_file by auto. rewrite N by now left. apply IH. intros x I. apply N. now right. }
  unfold run_module, extension_file. rewrite F, D. reflexivity.
Qed.
Print Assumptions C69_standalone.

(** and without such a file the module is what was generated *)
Theorem C69_standalone_none : forall fs sys_path pkg name schema defs,
  Forall component (pkg ++ [name]) ->
  (forall e, In e sys_path -> fs (e ++ pkg ++ [name ++ lit "_extended.py"]) = None) ->
  run_module fs sys_path true schema (dotted (pkg ++ [name])) defs = defs.
Proof.
  intros fs sys_path pkg name schema defs C N.
  assert (F : find_module fs sys_path (dotted (pkg ++ [name]) ++ lit "_extended") = None).
  { induction sys_path as [|e l IH]; cbn [find_module]; auto.
    rewrite module_file by auto. rewrite N by now left. apply IH. intros x I. apply N. now right. }
  unfold run_module, extension_file. now rewrite F.
Qed.
Print Assumptions C69_standalone_none.

(** Refuted: the extension of a standalone module is the file next to it. The
    module is imported from the first directory of sys.path which has NAME.py;
    an earlier directory with only NAME_extended.py provides the extension. *)
Theorem C69_neighbour_refuted : exists fs d1 d2 (code1 code2 : env -> env),
  (forall defs, code1 defs <> code2 defs) /\
  fs (d1 ++ [lit "foo.py"]) = None /\ fs (d1 ++ [lit "foo_extended.py"]) = Some code1 /\
  fs (d2 ++ [lit "foo.py"]) <> None /\ fs (d2 ++ [lit "foo_extended.py"]) = Some code2 /\
  forall schema defs, run_module fs [d1; d2] true schema (lit "foo") defs = code1 defs.
Proof.
  exists (fun p => if path_eq_dec p [lit "x"; lit "foo_extended.py"] then Some (fun _ _ => Some 1)
               else if path_eq_dec p [lit "y"; lit "foo_extended.py"] then Some (fun _ _ => Some 2)
               else if path_eq_dec p [lit "y"; lit "foo.py"] then Some (fun e => e) else None).
  exists [lit "x"], [lit "y"], (fun _ _ => Some 1), (fun _ _ => Some 2).
  split; [intros defs H; pose proof (f_equal (fun f => f []) H) as X; discriminate X|].
  split; [vm_compute; reflexivity|]. split; [vm_compute; reflexivity|].
  split; [vm_compute; discriminate|]. split; [vm_compute; reflexivity|].
  intros schema defs. vm_compute. reflexivity.
Qed.
Print Assumptions C69_neighbour_refuted.

(** ** Non-vacuity *)
Definition c_py := mkcls true [(lit "foo", 1); (lit "__eq__", 2)] [(lit "__eq__", 2)].
Definition c_cy := mkcls false [(lit "foo", 1); (lit "__eq__", 2)] [(lit "__eq__", 2)].
Definition body := [(lit "__module__", 9); (lit "bar", 3); (lit "foo", 4); (lit "__eq__", 5)].
Example C69_ex_class :
  NoDup (map fst body) /\
  extend true c_py body =
    (mkcls true [(lit "foo", 4); (lit "__eq__", 5); (lit "bar", 3)] [(lit "__eq__", 5)], Ok tt) /\
  snd (extend true c_cy body) = Err TypeError /\
  extend true c_cy [(lit "bar", 3); (lit "__bool__", 5)] =
    (mkcls false [(lit "foo", 1); (lit "__eq__", 2); (lit "bar", 3); (lit "__bool__", 5)] [(lit "__eq__", 2)], Ok tt).
Proof. split; [repeat constructor; vm_compute; intuition discriminate|]. vm_compute. repeat split. Qed.

Example C69_ex_module :
  dotted [lit "a"; lit "b"] = lit "a.b" /\ Forall component [lit "a"; lit "b"] /\
  extmod_of [lit "home"; lit "foo.capnp"] = [lit "home"; lit "foo_extended.py"].
Proof.
  split; [reflexivity|]. split; [|reflexivity].
  repeat constructor; try discriminate; vm_compute; intuition discriminate.
Qed.
