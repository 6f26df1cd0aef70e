(** Running a whole module. *)
From Coq Require Import Strings.String.
From Verif Require FloatBits.
From Verif Require Import Base BaseFacts Spec CopyList Case CaseFacts Loader List PyExpr Ctor PySyntax PySyntaxFacts PyPrint PyRun GenRun GenText GenTextFacts
  ClassText ReprText KeyText TextSpec ClassSpec ReprTextFacts ClassFacts PyModule PyModuleFacts ModuleText ModuleTextFacts ModuleRead PyModuleRun ModuleRunFacts ModuleRun2 ModuleSpec ModuleRun3 ModuleRun4 ModuleRun5 ModuleRun6.
From Coq Require Import Lists.List Permutation.
Local Notation length := Datatypes.length.
Local Open Scope string_scope.
Local Open Scope list_scope.
Local Open Scope Z_scope.

(** the names which are not those of structs *)
Definition rest_names (n : mnode) : list str :=
  match n with NStruct s _ => match sd_items s with [] => [] | _ => [tag_name s] end | _ => module_names n end.
Lemma names_rest l : NoDup (flat_map module_names l) -> forall x, In x (flat_map rest_names l) -> ~ In x (inames l) /\ ~ In x (snames l).
Proof.
  intros N. pose proof (proj1 (NoDup_count_occ dec_str _) N) as C. intros x I.
  assert (L : (cnt (snames l) x + cnt (inames l) x + cnt (flat_map rest_names l) x = cnt (flat_map module_names l) x)%nat).
  { clear N C I. induction l as [|n l IH]; [reflexivity|]. unfold inames in *. cbn [snames flat_map]. rewrite map_app, !cnt_app. fold (snames l).
    destruct n as [s ch|a b c d|a b|a b c]; cbn [map app module_names rest_names]; rewrite ?cnt_nil; try lia. rewrite !cnt_cons, !cnt_app, !cnt_cons, !cnt_nil. lia. }
  specialize (C x). change (cnt (flat_map module_names l) x <= 1)%nat in C. apply (count_occ_In dec_str) in I. change (cnt (flat_map rest_names l) x > 0)%nat in I.
  split; intros J; apply (count_occ_In dec_str) in J; [change (cnt (inames l) x > 0)%nat in J|change (cnt (snames l) x > 0)%nat in J]; lia.
Qed.

Lemma members_attr i items : forall a k m, nth_error items k = Some m -> In (m, VInst i (Z.of_nat (a + k))) (map (fun p => (match snd p with VStr s => s | _ => [] end, VInst i (Z.of_nat (fst p)))) (combine (seq a (length (map VStr items))) (map VStr items))).
Proof.
  induction items as [|x l IH]; intros a [|k] m H; try discriminate H.
  - injection H as ->. rewrite Nat.add_0_r. now left.
  - right. replace (a + S k)%nat with (S a + k)%nat by lia. now apply IH.
Qed.
Lemma members_keys i items : keys (member_attrs i (map VStr items)) = rev items.
Proof.
  unfold member_attrs. rewrite keys_rev. f_equal. generalize 0%nat. induction items as [|x l IH]; intros a; [reflexivity|]. cbn [map length seq combine keys fst snd]. f_equal. apply (IH (S a)).
Qed.
Lemma enum_made st i n id items : class_is st n i (enum_cls n id items i) -> NoDup (enum_names items) -> enum_is st i n (match id with Some z => VInt z | None => VNone end) items.
Proof.
  intros C N. exists (enum_cls n id items i). split; [exact C|]. split; [reflexivity|]. split; [reflexivity|].
  assert (K : NoDup (keys (pc_attrs (enum_cls n id items i)))).
  { cbn [enum_cls pc_attrs]. rewrite keys_app, members_keys. unfold enum_names in N. cbn [map] in N.
    eapply Permutation_NoDup; [|exact N]. cbn [enum_attrs keys map fst].
    eapply perm_trans; [apply Permutation_app_comm|]. apply Permutation_app; [apply Permutation_rev|]. apply (Permutation_rev [lit "__capnpy_id__"; lit "__members__"; lit "_new"]). }
  unfold attr. split; [|split].
  - apply get_in; [exact K|]. apply in_or_app. right. right. right. now left.
  - apply get_in; [exact K|]. apply in_or_app. right. right. now left.
  - intros k m H. apply get_in; [exact K|]. apply in_or_app. left. unfold member_attrs. rewrite <- in_rev. exact (members_attr i items 0 k m H).
Qed.
Lemma combine_fst {A B} : forall (a : list A) (b : list B), exists c, a = map fst (combine a b) ++ c.
Proof. induction a as [|x a IH]; intros [|y b]; [exists []; reflexivity|exists []; reflexivity|now exists (x :: a)|]. destruct (IH b) as (c & E). exists c. cbn [combine map fst app]. now rewrite <- E. Qed.
Lemma ann_keys id ts : NoDup (keys (ann_attrs id ts)).
Proof.
  unfold ann_attrs. rewrite keys_app, keys_rev. unfold keys at 1. rewrite map_map. cbn [fst].
  destruct (combine_fst annotation_targets ts) as (c & E).
  assert (N : NoDup (map (fun t => lit "targets_" ++ lit t) annotation_targets ++ [lit "__capnpy_id__"])).
  { apply (NoDup_count_occ (list_eq_dec Z.eq_dec)). intros x. assert (D : NoDup (map (fun t => lit "targets_" ++ lit t) annotation_targets ++ [lit "__capnpy_id__"])).
    { assert (Q : forall l : list str, nodup (list_eq_dec Z.eq_dec) l = l -> NoDup l) by (intros l <-; apply NoDup_nodup). apply Q. vm_compute. reflexivity. }
    exact (proj1 (NoDup_count_occ _ _) D x). }
  rewrite E, map_app, map_map in N. rewrite <- app_assoc in N. eapply Permutation_NoDup in N; [|apply Permutation_app_head, Permutation_app_comm]. rewrite app_assoc in N.
  apply NoDup_app in N. destruct N as (N & _). eapply Permutation_NoDup; [|exact N]. apply Permutation_app_tail, Permutation_rev.
Qed.
Lemma ann_targets id ts : forall k t b, nth_error annotation_targets k = Some t -> nth_error ts k = Some b -> get (ann_attrs id ts) (lit "targets_" ++ lit t) = Some (VBool b).
Proof.
  intros k t b T B. apply get_in; [apply ann_keys|]. unfold ann_attrs. apply in_or_app. left. rewrite <- in_rev. apply in_map_iff. exists (t, b). split; [reflexivity|].
  revert T B. generalize annotation_targets. clear id. intros l. revert k ts. induction l as [|x l IH]; intros [|k] [|y ts] T B; try discriminate T; try discriminate B.
  - injection T as ->. injection B as ->. now left.
  - right. exact (IH k ts T B).
Qed.
Lemma ann_id id ts : get (ann_attrs id ts) (lit "__capnpy_id__") = Some (VInt id).
Proof.
  unfold ann_attrs. rewrite get_new; [reflexivity|]. intros I. rewrite keys_rev, <- in_rev in I. unfold keys in I. rewrite map_map in I. cbn [fst] in I.
  apply in_map_iff in I. destruct I as ([t b] & E & I). apply in_combine_l in I. cbn [fst] in E.
  assert (X : In (lit "__capnpy_id__") (map (fun t => lit "targets_" ++ lit t) annotation_targets)) by (apply in_map_iff; exists t; split; [exact E|exact I]).
  vm_compute in X. repeat (destruct X as [X|X]; [discriminate X|]). destruct X.
Qed.

Section final.
  Context (w : world) (fl : Z -> str) (nm : str -> string -> string -> names) (val : str -> pexp).
  Lemma decl_bound g H n : decl_facts (mkmst g H) n -> forall x, In x (module_name n) -> bound g x.
  Proof.
    intros D x I. destruct n as [s ch|short n id items|n v|n id ts]; cbn [decl_facts module_name] in *.
    - destruct I as [<-|[]]. destruct D as ((i & C & _) & _). exists (VCls i). exact C.
    - destruct I as [<-|[]]. destruct D as (i & (C & _) & _). exists (VCls i). exact C.
    - destruct I.
    - destruct I as [<-|[]]. destruct D as (i & v & C & _). exists (VCls i). exact C.
  Qed.
  Lemma module_name_in n x : In x (module_name n) -> In x (module_names n).
  Proof. destruct n; cbn [module_name module_names]; [|intros [<-|[]]; now left|tauto|tauto]. intros [<-|[]]. now left. Qed.
  Lemma in_nodes (f : mnode -> list str) l n x : In n l -> In x (f n) -> In x (flat_map f l).
  Proof. intros A B. apply in_flat_map. exists n. split; assumption. Qed.

  Lemma struct_made st g1 l s ch b i g0 : node_readable w fl nm val (NStruct s ch) -> (forall c, In c ch -> node_readable w fl nm val c) -> node_named (NStruct s ch) -> the_body fl nm (NStruct s ch, b) ->
    class_is st (sd_name s) i (full_cls val g0 s ch b) -> tag_facts st s ->
    (forall x, ~ In x (inames l) -> get g0 x = get g1 x) ->
    (forall c x, In c ch -> In x (module_name c) -> ~ In x (inames l) /\ get (m_globals st) x = get g1 x /\ match c with NAnn _ _ _ => True | _ => exists i, get (m_globals st) x = Some (VCls i) end) ->
    (sd_items s <> [] -> ~ In (tag_name s) (inames l) /\ get (m_globals st) (tag_name s) = get g1 (tag_name s)) ->
    struct_is st fl nm i s ch.
  Proof.
    intros R Rc (N & Ne & _) (Bb & P & D) C T G0 Gc Gt. exists (full_cls val g0 s ch b). split; [exact C|]. split; [reflexivity|]. split; [reflexivity|].
    pose proof (proj1 (names_once fl nm val g0 s ch b P N)) as K.
    assert (At : forall n v, In (n, v) (body_attrs val g0 s ch b ++ [(lit "__name__", VStr (sd_dotname s))]) -> attr (full_cls val g0 s ch b) n = Some v).
    { intros n v I. unfold attr, full_cls. cbn [add_attrs struct_cls pc_attrs]. apply get_in; [exact K|exact I]. }
    assert (Ac : forall n v, In (n, v) (const_attrs s) -> attr (full_cls val g0 s ch b) n = Some v).
    { intros n v I. apply At. apply in_or_app. left. unfold body_attrs. apply in_or_app. right. apply in_or_app. right. apply in_or_app. now right. }
    assert (Ar : forall c n e, In c ch -> In (n, e) (ref_ast val true c) -> attr (full_cls val g0 s ch b) n = Some (ref_val g0 e)).
    { intros c n e Ic I. apply At. apply in_or_app. left. unfold body_attrs. apply in_or_app. right. apply in_or_app. right. apply in_or_app. left.
      unfold ref_attrs. rewrite <- in_rev. apply in_map_iff. exists (n, e). split; [reflexivity|]. apply in_flat_map. exists c. split; assumption. }
    assert (Rv : forall x v, get g0 x = Some v -> ref_val g0 (xVar x) = v).
    { intros x v G. unfold ref_val. cbn [ev]. now rewrite (look_global g0 x v G). }
    split; [apply At; apply in_or_app; right; now left|]. split; [apply Ac; right; right; now left|]. split; [apply Ac; right; now left|]. split; [apply Ac; now left|].
    split; [|split; [|split; [|split]]].
    - intros s' ch' I Gr. destruct (Gc _ (sd_name s') I (or_introl eq_refl)) as (Ni & E & (i' & E2)). exists i'. split; [|exact E2].
      rewrite (Ar (NStruct s' ch') (sd_short s') (xVar (sd_name s')) I); [|cbn [ref_ast]; rewrite Gr; now left]. f_equal. apply Rv. rewrite G0 by exact Ni. rewrite <- E. exact E2.
    - intros short n id items I. destruct (Gc _ n I (or_introl eq_refl)) as (Ni & E & (i' & E2)). exists i'. split; [|exact E2].
      rewrite (Ar (NEnum short n id items) short (xVar n) I); [|now left]. f_equal. apply Rv. rewrite G0 by exact Ni. rewrite <- E. exact E2.
    - intros n v I. rewrite (Ar (NConst n v) n (val v) I (or_introl eq_refl)). apply literal_constant. exact (proj2 (Rc _ I)).
    - intros u Hu Hm. destruct R as (_ & _ & _ & _ & (c & Cd) & _). destruct (items_ok _ _ _ _ _ _ _ Cd) as (ms & Pm & Ei & Ed & Fm).
      assert (Es : sd_items s = map (fun f => lit (f_name f)) ms) by (unfold sd_items; now rewrite Hu).
      assert (Nz : sd_items s <> []).
      { rewrite Es. intros X. apply map_eq_nil in X. subst ms. apply Hm. now apply Permutation_nil. }
      destruct (T Nz) as (j & Cj). destruct (Gt Nz) as (Ni & E). exists j, (sd_items s).
      assert (Ta : tag_attrs g0 s = [(lit "__tag_offset__", VInt (u * 2)); (lit "__tag__", ref_val g0 (xVar (tag_name s)))]).
      { unfold tag_attrs. rewrite Hu. destruct (sd_items s); [contradiction|reflexivity]. }
      assert (At2 : forall n v, In (n, v) (tag_attrs g0 s) -> attr (full_cls val g0 s ch b) n = Some v).
      { intros n v I. apply At. apply in_or_app. left. unfold body_attrs. apply in_or_app. right. apply in_or_app. now left. }
      rewrite Ta in At2. split; [|split; [|split; [|split]]].
      + rewrite (At2 (lit "__tag__") _ (or_intror (or_introl eq_refl))). f_equal. apply Rv. rewrite G0 by exact Ni. rewrite <- E. apply Cj.
      + apply At2. now left.
      + exact (enum_made st j (tag_name s) None (sd_items s) Cj Ne).
      + rewrite Es, map_length. now apply Permutation_length.
      + intros f d If Df. assert (Im : In f ms) by (apply (Permutation_in f (Permutation_sym Pm)), filter_In; split; [exact If|unfold is_member; now rewrite Df]).
        apply In_nth_error in Im. destruct Im as (k & Hk). rewrite Es, nth_error_map.
        assert (X : nth_error (map f_disc ms) k = Some (Some d)) by (rewrite nth_error_map, Hk; cbn; now rewrite Df).
        rewrite Ed, nth_error_map in X. destruct (nth_error (seq 0 (length (filter is_member (sn_fields (sd_sn s))))) k) as [q|] eqn:Q; [|discriminate X]. cbn in X. injection X as X.
        assert (q = k). { pose proof (nth_error_nth _ _ 0%nat Q) as Y. rewrite seq_nth in Y; [now symmetry|]. rewrite <- (seq_length (length (filter is_member (sn_fields (sd_sn s)))) 0). apply nth_error_Some. congruence. }
        subst q d. rewrite Nat2Z.id, Hk. reflexivity.
    - exists b, (last_ast s). split; [eapply blk_reads, Bb|]. split.
      + eapply blk_reads, last_block; [apply R|]. destruct R as (_ & _ & _ & _ & _ & _ & Ky). exact Ky.
      + intros d n ps bd I. apply At. apply in_or_app. left. unfold body_attrs. apply in_or_app. left. rewrite <- in_rev. apply in_flat_map. exists (qDef d n ps bd). split; [exact I|now left].
  Qed.

  Lemma run_all version h nodes bs mn sch : readable w fl nm val h nodes -> named nodes -> (h_check h = true -> h_version h = version) ->
    map fst bs = nodes_of nodes -> Forall (the_body fl nm) bs ->
    exists st, exec version (module_ast val h nodes bs) (start mn sch) = Ok st /\ (forall n, In n (all_nodes nodes) -> holds st fl nm n) /\
      forall n v, In (NConst n v) nodes -> constant_is v (get (m_globals st) n).
  Proof.
    intros (_ & Rd) (Nd & Nm) Ve Eb Fb. rewrite all_nodes_post in *.
    destruct (NoDup_app _ _ Nd) as (_ & Nd2 & Du). destruct (NoDup_app _ _ Nd2) as (Nt & Nn & Dt). clear Nd Nd2.
    assert (Nu : forall x, In x (flat_map module_names (nodes_of nodes)) -> ~ In x needed_names).
    { intros x I J. apply (Du x); [exact J|]. apply in_or_app. now right. }
    assert (Tu : forall x, In x (top_names nodes) -> ~ In x needed_names).
    { intros x I J. apply (Du x); [exact J|]. apply in_or_app. now left. }
    destruct (header_run h version mn sch Ve) as (g & H & E1 & R). destruct (decls_run version (nodes_of nodes) g H R Nu Nn) as (B & C & E2 & KB & D).
    set (g1 := B ++ g) in *. set (H1 := H ++ C) in *. assert (R1 : runtime_ok g1) by (apply runtime_new; [intros x I; apply Nu, KB, I|exact R]).
    destruct (names_names fl nm val _ Nn) as (Ns & Ni).
    assert (Ready : Forall (p_ready w fl nm val g1 H1) bs).
    { rewrite Forall_forall in *. intros [n b] I. specialize (Fb _ I). assert (In n (nodes_of nodes)) as In_n by (rewrite <- Eb; apply in_map_iff; exists (n, b); split; [reflexivity|exact I]).
      unfold p_ready. cbn [fst snd]. destruct n as [s ch|a1 a2 a3 a4|a1 a2|a1 a2 a3]; try exact Logic.I. pose proof (D _ In_n) as Ds. cbn [decl_facts] in Ds. destruct Ds as (Cs & Ts). split; [|exact Cs].
      split; [now apply Rd|]. split; [intros c Ic; apply Rd; eapply node_child; eassumption|]. split; [now apply Nm|]. split.
      - intros x X. apply in_flat_map in X. destruct X as (c & Ic & X). exact (decl_bound g1 H1 c (D c ltac:(eapply node_child; eassumption)) x X).
      - split; [|exact (proj2 Fb)]. intros Z. destruct (Ts Z) as (j & Cj & _). exists (VCls j). exact Cj. }
    rewrite <- Eb in Ns, Ni. destruct (defs_run w fl nm val version bs g1 H1 R1 Ready Ns ltac:(intros x X; apply Nu; apply Ni in X; rewrite Eb in X; exact X)) as (g2 & H2 & E3 & R2 & G2 & K2 & F2).
    rewrite Eb in *. destruct (tops_run w fl nm val version nodes g2 H2 ltac:(intros n I; apply Rd, node_top, I)) as (B3 & E4 & KB3 & Q3).
    assert (R3 : runtime_ok (B3 ++ g2)) by (apply runtime_new; [intros x I; apply Tu, KB3, I|exact R2]).
    exists (mkmst (B3 ++ g2) H2). split.
    { unfold module_ast. rewrite exec_app, E1. cbn [bind]. rewrite exec_app, E2. cbn [bind]. rewrite exec_app, E3. cbn [bind]. rewrite exec_app, E4. cbn [bind]. exact (end_run nm val version h _ _ R3). }
    assert (Gf : forall x, In x (flat_map module_names (nodes_of nodes)) -> get (B3 ++ g2) x = get g2 x).
    { intros x I. apply get_new. intros J. apply (Dt x); [now apply KB3|exact I]. }
    assert (Rest : forall n, In n (nodes_of nodes) -> forall x, In x (rest_names n) -> ~ In x (inames (nodes_of nodes)) /\ ~ In x (snames (nodes_of nodes)) /\ get (B3 ++ g2) x = get g1 x).
    { intros n I x X. destruct (names_rest _ Nn x (in_nodes rest_names _ n x I X)) as (A & A'). split; [exact A|]. split; [exact A'|]. rewrite Gf, G2; [reflexivity|exact A|].
      apply (in_nodes module_names _ n x I). destruct n as [s ch|a1 a2 a3 a4|a1 a2|a1 a2 a3]; try exact X. cbn [rest_names module_names] in *. right. apply in_or_app. now left. }
    assert (Sn : forall s ch, In (NStruct s ch) (nodes_of nodes) -> ~ In (sd_name s) (inames (nodes_of nodes)) /\ get (B3 ++ g2) (sd_name s) = get g1 (sd_name s)).
    { intros s ch I. assert (A : ~ In (sd_name s) (inames (nodes_of nodes))).
      { destruct (NoDup_app _ _ Ns) as (_ & _ & Dj). apply Dj. apply in_flat_map. exists (NStruct s ch). split; [exact I|now left]. }
      split; [exact A|]. rewrite Gf, G2; [reflexivity|exact A|]. apply (in_nodes module_names _ (NStruct s ch) _ I). now left. }
    assert (Df : forall n, In n (nodes_of nodes) -> match n with NStruct _ _ => True | _ => decl_facts (mkmst (B3 ++ g2) H2) n end).
    { intros n I. pose proof (Rest n I) as Rn. pose proof (D n I) as Dn.
      destruct n as [s ch|a1 a2 a3 a4|a1 a2|a1 a2 a3]; [exact Logic.I| | |]; (eapply decl_mono; [exact Dn|intros x X; apply Rn, X|intros i c X; apply K2, Rn, X]). }
    assert (Defs : forall s ch, In (NStruct s ch) (nodes_of nodes) -> exists b, In (NStruct s ch, b) bs).
    { intros s ch I. rewrite <- Eb in I. apply in_map_iff in I. destruct I as ([n b] & E & I). cbn [fst] in E. subst n. exists b. exact I. }
    rewrite Forall_forall in F2, Fb.
    assert (Tg : forall s ch, In (NStruct s ch) (nodes_of nodes) -> tag_facts (mkmst (B3 ++ g2) H2) s).
    { intros s ch I Z. destruct (D _ I) as (_ & T). destruct (T Z) as (j & Cj). pose proof (Rest _ I (tag_name s)) as Rn. cbn [rest_names] in Rn. destruct (sd_items s) as [|x l]; [contradiction|].
      specialize (Rn (or_introl eq_refl)). exists j. eapply class_is_mono; [exact Cj|apply Rn|apply K2, Rn]. }
    split; [|exact (Q3 Nt)].
    intros n I. destruct n as [s ch|short n id items|n v|n id ts]; cbn [holds].
    - destruct (Defs s ch I) as (b & Ib). pose proof (F2 _ Ib) as F. cbn [def_facts fst snd] in F. destruct F as (i & g0 & Ci & It & Gx). exists i. split.
      2:{ cbn [m_globals] in *. rewrite Gf; [exact It|]. apply (in_nodes module_names _ (NStruct s ch) _ I). right. apply in_or_app. right. now left. }
      apply (struct_made _ g1 (nodes_of nodes) s ch b i g0); [now apply Rd|intros c Ic; apply Rd; eapply node_child; eassumption|now apply Nm|now apply Fb| |now apply Tg with (ch := ch)|exact Gx| |].
      + destruct Ci as (Ca & Cb). split; [|exact Cb]. cbn [m_globals] in *. rewrite Gf; [exact Ca|]. apply (in_nodes module_names _ (NStruct s ch) _ I). now left.
      + intros c x Ic X. assert (J : In c (nodes_of nodes)) by (eapply node_child; eassumption).
        destruct c as [s' ch'|a1 a2 a3 a4|a1 a2|a1 a2 a3]; cbn [module_name m_globals] in *.
        * destruct X as [<-|[]]. destruct (Sn s' ch' J) as (A & A'). split; [exact A|]. split; [exact A'|]. destruct (Defs s' ch' J) as (b' & Ib'). destruct (F2 _ Ib') as (i' & _ & (Cc & _) & _).
          exists i'. rewrite Gf; [exact Cc|]. apply (in_nodes module_names _ (NStruct s' ch') _ J). now left.
        * destruct X as [<-|[]]. destruct (Rest _ J a2 (or_introl eq_refl)) as (A & _ & A'). split; [exact A|]. split; [exact A'|]. destruct (Df _ J) as (i' & (Cc & _) & _). exists i'. exact Cc.
        * destruct X.
        * destruct X as [<-|[]]. destruct (Rest _ J a1 (or_introl eq_refl)) as (A & _ & A'). split; [exact A|]. split; [exact A'|exact Logic.I].
      + intros Z. pose proof (Rest _ I (tag_name s)) as Rn. cbn [rest_names] in Rn. destruct (sd_items s) as [|x l]; [contradiction|]. destruct (Rn (or_introl eq_refl)) as (A & _ & A'). split; assumption.
    - destruct (Df _ I) as (i & Ci & It). exists i. split; [|exact It]. exact (enum_made _ i n (Some id) items Ci (Nm _ I)).
    - exact Logic.I.
    - destruct (Df _ I) as (i & v & Ci). exists i, (mkpc n v (ann_attrs id ts)). split; [exact Ci|]. split; [apply ann_id|exact (ann_targets id ts)].
  Qed.
End final.
