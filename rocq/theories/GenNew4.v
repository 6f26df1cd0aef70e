(** The text of __init__, new_foo and of the constructors of groups. *)
From Coq Require Import Strings.String.
From Verif Require FloatBits Names CtorErr Const.
From Verif Require Import Base BaseFacts Spec Ptr Segment Builder Copy Struct List CopyList Case CaseFacts Loader Repr PyExpr
  Ctor CtorSlots CtorFacts PySyntax PySyntaxFacts PyPrint PyRun GenRun GenText TextSpec GenTextFacts GenTextRun GenNew GenNew2 GenNew3.
From Coq Require Import Lists.List.
Local Notation length := Datatypes.length.
Local Open Scope string_scope.
Local Open Scope list_scope.
Local Open Scope Z_scope.

(** ** Calling a function *)
Lemma known_kws kws names : forallb (fun kw : str * xv => existsb (str_eqb (fst kw)) (map lit names)) (map xkw kws) = forallb (fun p => existsb (String.eqb (fst p)) names) kws.
Proof.
  induction kws as [|[n x] r IH]; [reflexivity|]. cbn [map forallb keyword_arg fst]. rewrite IH. f_equal. clear. induction names as [|m ms IHm]; [reflexivity|]. cbn [map existsb]. now rewrite lit_eqb, IHm.
Qed.
Lemma known_app names args kws : forallb (fun p : string * pyval => existsb (String.eqb (fst p)) names) (combine names args ++ kws) = forallb (fun p => existsb (String.eqb (fst p)) names) kws.
Proof.
  rewrite forallb_app. replace (forallb _ (combine names args)) with true; [reflexivity|]. symmetry. apply forallb_forall. intros [n x] Hx. apply in_combine_l in Hx. cbn [fst].
  apply existsb_exists. exists n. split; [exact Hx|apply String.eqb_refl].
Qed.
Lemma combine_split (nds : list (string * pyval)) : combine (map fst nds) (map snd nds) = nds.
Proof. induction nds as [|[a b] r IH]; [reflexivity|]. cbn [map combine fst snd]. now rewrite IH. Qed.
Lemma existsb_fst_map {A} n (l : list (str * A)) : existsb (fun p => str_eqb n (fst p)) l = existsb (str_eqb n) (map fst l).
Proof. induction l as [|a l IH]; [reflexivity|]. cbn [existsb map]. now rewrite IH. Qed.

Section call.
  Context (w : world) (dp : nat).
  Notation R := (rt w dp).
  Lemma bind_with (nds : list (string * pyval)) args kws : NoDup (map fst nds) ->
    (if forallb (fun kw : str * xv => existsb (str_eqb (fst kw)) (map lit (map fst nds))) (map xkw kws)
     then bind_params (map vpar nds) (map XV args) (map xkw kws) else Err TypeError) =
    (do xs <- with_args (map fst nds) args kws (bind_args (map fst nds) (map snd nds)); Ok (map XV xs)).
  Proof.
    intros N. rewrite known_kws, bind_mixed by exact N. unfold with_args, bind_args. rewrite known_app, combine_split.
    destruct (clash _ _ _), (forallb _ _); reflexivity.
  Qed.
  Lemma call_named ps nds body args kws s : def_params R ps s = Ok (map vpar nds) -> NoDup (map fst nds) ->
    call_def R ps body (map XV args) (map xkw kws) s =
    (do xs <- with_args (map fst nds) args kws (bind_args (map fst nds) (map snd nds));
     match set_vars (fun _ => None) (map lit (map fst nds)) (map XV xs) with
     | None => Err TypeError
     | Some e => finish (run_block R (map lit (map fst nds) ++ flat_map assigned body) body e s)
     end).
  Proof.
    intros D N. unfold call_def. rewrite D. cbn [bind].
    replace (forallb _ (map xkw kws)) with (forallb (fun kw : str * xv => existsb (str_eqb (fst kw)) (map lit (map fst nds))) (map xkw kws)).
    2:{ assert (X : forall l, forallb (fun kw : str * xv => existsb (str_eqb (fst kw)) (map lit (map fst nds))) l = forallb (fun kw : str * xv => existsb (fun p => str_eqb (fst kw) (fst p)) (map vpar nds)) l).
        { induction l as [|a l IH]; [reflexivity|]. cbn [forallb]. rewrite IH, existsb_fst_map, vpar_names. reflexivity. }
        apply X. }
    pose proof (bind_with nds args kws N) as B. destruct (forallb _ (map xkw kws)).
    - rewrite B. destruct (with_args _ _ _ _) as [xs|]; [|reflexivity]. cbn [bind]. rewrite vpar_names. destruct (set_vars _ _ _); [|reflexivity]. unfold finish. 
      destruct (run_block _ _ _ _ _) as [[]|]; try reflexivity. cbn [bind]. rewrite rt_const. reflexivity.
    - destruct (with_args _ _ _ _) as [xs|]; [discriminate B|]. injection B as <-. reflexivity.
  Qed.
  (** the first parameter is self or cls *)
  Lemma call_first ps nds x v body args kws s : def_params R ps s = Ok ((lit x, None) :: map vpar nds) -> NoDup (map fst nds) -> ~ In x (map fst nds) ->
    call_def R ps body (v :: map XV args) (map xkw kws) s =
    (do xs <- with_args (map fst nds) args kws (bind_args (map fst nds) (map snd nds));
     match set_vars (set_var (fun _ => None) (lit x) v) (map lit (map fst nds)) (map XV xs) with
     | None => Err TypeError
     | Some e => finish (run_block R (lit x :: map lit (map fst nds) ++ flat_map assigned body) body e s)
     end).
  Proof.
    intros D N Nx. unfold call_def. rewrite D. cbn [bind].
    assert (X : forall l, forallb (fun kw : str * xv => existsb (fun p => str_eqb (fst kw) (fst p)) ((lit x, None) :: map vpar nds)) (map xkw l)
      = forallb (fun p => existsb (String.eqb (fst p)) (x :: map fst nds)) l).
    { intros l. rewrite <- (known_kws l (x :: map fst nds)). generalize (map xkw l). induction l0 as [|a l0 IH]; [reflexivity|]. cbn [forallb]. rewrite IH, existsb_fst_map. cbn [map fst]. rewrite vpar_names. reflexivity. }
    rewrite X. clear X. cbn [bind_params]. rewrite find_kw_lit.
    pose proof (bind_with nds args kws N) as B. rewrite known_kws in B.
    destruct (assoc kws x) as [y|] eqn:Ea; cbn [option_map].
    - replace (with_args (map fst nds) args kws (bind_args (map fst nds) (map snd nds))) with (@Err (list pyval) TypeError); [cbn [bind]; match goal with |- (if ?b then _ else _) = _ => destruct b end; reflexivity|].
      unfold with_args. destruct (clash _ _ _); [reflexivity|]. unfold bind_args. rewrite known_app.
      assert (F : forallb (fun p : string * pyval => existsb (String.eqb (fst p)) (map fst nds)) kws = false).
      { unfold assoc in Ea. destruct (find _ kws) as [[n z]|] eqn:Ef; [|discriminate Ea]. apply find_some in Ef. destruct Ef as (If & Ef). cbn [fst] in Ef. apply String.eqb_eq in Ef. subst n.
        destruct (forallb _ kws) eqn:F; [|reflexivity]. rewrite forallb_forall in F. specialize (F _ If). cbn [fst] in F. apply existsb_exists in F. destruct F as (m & Im & Em). apply String.eqb_eq in Em. subst m. contradiction. }
      rewrite F. reflexivity.
    - assert (F : forallb (fun p : string * pyval => existsb (String.eqb (fst p)) (x :: map fst nds)) kws = forallb (fun p => existsb (String.eqb (fst p)) (map fst nds)) kws).
      { clear - Ea. unfold assoc in Ea. induction kws as [|[n z] r IH]; [reflexivity|]. cbn [forallb fst]. cbn [find fst] in Ea. destruct (String.eqb n x) eqn:E; [discriminate Ea|]. rewrite (IH Ea). cbn [existsb]. rewrite E. reflexivity. }
      rewrite F. clear F. destruct (forallb (fun p : string * pyval => existsb (String.eqb (fst p)) (map fst nds)) kws).
      + rewrite B. destruct (with_args _ _ _ _) as [xs|]; [|reflexivity]. cbn [bind map fst set_vars]. rewrite vpar_names. destruct (set_vars _ _ _); [|reflexivity]. unfold finish.
        cbn [app]. destruct (run_block _ _ _ _ _) as [[]|]; try reflexivity. cbn [bind]. rewrite rt_const. reflexivity.
      + destruct (with_args _ _ _ _) as [xs|]; [discriminate B|]. injection B as <-. reflexivity.
  Qed.
End call.

(** the values of the parameters *)
Lemma set_vars_get ns : forall vs (e : @vars xv), NoDup ns -> length vs = length ns ->
  exists e', set_vars e ns vs = Some e' /\ (forall n, ~ In n ns -> e' n = e n) /\ map e' ns = map Some vs.
Proof.
  induction ns as [|n ns IH]; intros [|v vs] e N E; try discriminate E; [exists e; auto|]. inversion N as [|? ? Nn Nr]; subst. injection E as E.
  destruct (IH vs (set_var e n v) Nr E) as (e' & S & O & G). exists e'. split; [exact S|]. split.
  - intros m Nm. rewrite O by (intros X; apply Nm; now right). unfold set_var. destruct (str_eqb m n) eqn:X; [|reflexivity]. apply str_eqb_spec in X. exfalso. apply Nm. now left.
  - cbn [map]. rewrite G, (O n Nn). unfold set_var. now rewrite str_eqb_refl.
Qed.
Lemma bind_args_length names dflts kw xs : bind_args names dflts kw = Ok xs -> length dflts = length names -> length xs = length names.
Proof. unfold bind_args. destruct (forallb _ _); [|discriminate]. intros E H. apply ok_inj in E. subst xs. rewrite map_length, combine_length. lia. Qed.
Lemma NoDup_lit l : NoDup l -> NoDup (map lit l).
Proof.
  induction 1 as [|x l N H IH]; [apply NoDup_nil|]. cbn [map]. apply NoDup_cons; [|exact IH]. intros I. apply in_map_iff in I. destruct I as (y & E & Iy). apply lit_inj in E. subst. contradiction.
Qed.
Lemma ev_vars w dp L e ns s : forall vs, incl ns L -> map e ns = map Some vs -> ev_all (rt w dp) L e (map xVar ns) s = Ok (vs, s).
Proof.
  induction ns as [|n ns IH]; intros [|v vs] I E; try discriminate E; [reflexivity|]. cbn [map] in E. injection E as E1 E2. cbn [map ev_all ev]. unfold var.
  rewrite (in_existsb n L) by (apply I; now left). rewrite E1. cbn [bind]. rewrite (IH vs) by (auto using incl_cons_inv || (intros x Hx; apply I; now right)). reflexivity.
Qed.

Section ctors.
  Context (w : world) (fl : Z -> str) (nm : string -> string -> names).
  Notation fuel := (w_fuel w).
  Notation top sn := (filter visible (sn_fields sn)).
  Notation names sn := (map f_name (filter visible (sn_fields sn))).

  (** ** __new *)
  Definition has_new (c : str) (sn : struct_node) : Prop := exists ast,
    corr w ast (fun k => new_text_body fl nm k sn) (new_stmts sn) (names sn) /\
    last_def (w_body w c) (lit "__new") = Some (Some (lit "staticmethod"), new_ps fl sn, new_body sn ast).
  Lemma call_new_text c sn dp xs s : node_described w fl nm sn -> has_new c sn -> length xs = length (names sn) ->
    r_call (rt w (S dp)) (XMeth (XCls c) (lit "__new")) (map XV xs) [] s = (do buf <- run_new fuel sn xs; Ok (XV (PBytes buf), mkst buf (s_new s))).
  Proof.
    intros H (ast & C & D) E. cbn [rt r_call]. rewrite D. change (is (lit "staticmethod") "classmethod") with false. cbn iota.
    pose proof (call_named w dp (new_ps fl sn) (pars None (top sn)) (new_body sn ast) xs [] s (pars_def w fl None (top sn) dp s (node_ready w fl nm sn None H))) as X.
    rewrite pars_fst in X. specialize (X (nd_names _ _ _ sn H)). change (map xkw []) with (@nil (str * xv)) in X. rewrite X.
    replace (with_args (names sn) xs [] (bind_args (names sn) (map snd (pars None (top sn))))) with (@Ok (list pyval) xs).
    - cbn [bind]. apply (new_run w fl nm); assumption.
    - symmetry. unfold with_args, clash. rewrite E, Nat.leb_refl. cbn [negb orb existsb]. unfold bind_args. rewrite known_app. cbn [forallb].
      f_equal. rewrite app_nil_r. assert (N := nd_names _ _ _ sn H). unfold pars. rewrite map_map. cbn [snd].
      clear - E N.
      assert (G : forall ns ds xs, NoDup ns -> length ds = length ns -> length xs = length ns ->
        map (fun nd : string * pyval => match assoc (combine ns xs) (fst nd) with Some x => x | None => snd nd end) (combine ns ds) = xs).
      { clear. induction ns as [|n ns IH]; intros [|d ds] [|x xs] Nd E1 E2; try discriminate; [reflexivity|]. inversion Nd as [|? ? Nn Nr]; subst. cbn [combine map fst snd]. f_equal.
        - unfold assoc. cbn [find fst snd]. now rewrite String.eqb_refl.
        - injection E1 as E1. injection E2 as E2. etransitivity; [|exact (IH ds xs Nr E1 E2)]. apply map_ext_in. intros [m d'] Im. cbn [fst snd]. rewrite assoc_cons_ne; [reflexivity|].
          intros ->. apply Nn. now apply in_combine_l in Im. }
      apply G; [exact N|now rewrite !map_length|exact E].
  Qed.
  Lemma cls_new_attr c sn dp s : has_new c sn -> r_attr (rt w dp) (XCls c) (lit "__new") s = Ok (XMeth (XCls c) (lit "__new"), s).
  Proof. intros (ast & _ & D). destruct dp; cbn [rt r_attr]; rewrite D; reflexivity. Qed.

  (** ** __init__ *)
  Definition init_ps sn : list (str * option pexp) := (lit "self", None) :: map (par fl None) (top sn).
  Definition init_ast (g : pexp) sn : list pstmt :=
    [set "_buf" (xApp (xDot g (lit "__new")) (map xVar (map lit (names sn))) []);
     qExpr (meth self "_init_from_buffer" [V "_buf"; num 0; num (sn_ds sn); num (sn_ps sn)])].
  Lemma wf_vars ns : Forall name ns -> Forall wfx (map xVar ns).
  Proof. intros F. apply Forall_map. exact F. Qed.
  Lemma sh_vars ns : map sh (map xVar ns) = ns.
  Proof. rewrite map_map. induction ns as [|n ns IH]; [reflexivity|]. cbn [map]. now rewrite IH, sh_var. Qed.
  Lemma wfx_app_vars g ns : wfx g -> dotable g = true -> Forall name ns -> wfx (xApp g (map xVar ns) []).
  Proof.
    intros W D F. cbn [wfx]. split; [exact W|]. split; [exact D|]. split; [|split; [exact Logic.I|reflexivity]]. clear - F. induction F as [|n ns N F IH]; [exact Logic.I|]. cbn [map]. split; [exact N|exact IH].
  Qed.

  Lemma names_fine sn : node_described w fl nm sn -> Forall fine (names sn).
  Proof. intros H. apply Forall_map, Forall_forall. intros f If. pose proof (node_ready w fl nm sn None H) as Rd. unfold ready in Rd. rewrite Forall_forall in Rd. apply (Rd f If). Qed.
  Lemma fine_names l : Forall fine l -> Forall name (map lit l).
  Proof. intros F. apply Forall_map. eapply Forall_impl; [|exact F]. apply fine_name. Qed.
  Lemma init_block k cls g sn : node_described w fl nm sn -> cls_text cls g ->
    block k (init_text fl k cls sn) [qDef None (lit "__init__") (init_ps sn) (init_ast g sn)].
  Proof.
    intros H T. destruct (cls_sh _ _ T) as (Es & Ws & Ds). unfold init_text. pose proof (node_ready w fl nm sn None H) as Rd.
    assert (Nf := names_fine sn H).
    assert (E : lns k [(0%nat, lit "def __init__(" ++ args_text (lit "self" :: map (param_text fl None) (top sn)) ++ lit "):");
         (4%nat, lit "_buf = " ++ cls ++ lit ".__new(" ++ args_text (map (fun f => lit (f_name f)) (top sn)) ++ lit ")");
         (4%nat, lit "self._init_from_buffer(_buf, 0, " ++ dec (sn_ds sn) ++ lit ", " ++ dec (sn_ps sn) ++ lit ")")] ++ [blank_line k] =
       (deco_text k None ++ def_line k (lit "__init__") (init_ps sn) ::
         ([ln (k + 4) (lit "_buf = " ++ cls ++ lit ".__new(" ++ args_text (map lit (names sn)) ++ lit ")")] ++
          [ln (k + 4) (lit "self._init_from_buffer(_buf, 0, " ++ dec (sn_ds sn) ++ lit ", " ++ dec (sn_ps sn) ++ lit ")")])) ++ [blank_line k]).
    { unfold def_line, init_ps. cbn [map]. change (par_text (lit "self", None)) with (lit "self"). rewrite (par_texts w fl None _ Rd). rewrite !lns_cons, lns_nil, !Nat.add_0_r. rewrite map_map. reflexivity. }
    rewrite E. rewrite <- (app_nil_r [qDef _ _ _ _]). apply blk_app; [|apply blk_blank].
    apply blk_def with (k' := (k + 4)%nat); [exact Logic.I|nm| | | |lia|discriminate|].
    - apply Forall_cons; [split; [nm|exact Logic.I]|apply (pars_ok w), Rd].
    - apply (pars_ordered fl None (top sn)).
    - unfold init_ps. cbn [map fst distinct]. rewrite pars_names, (distinct_lit _ (nd_names _ _ _ sn H)), andb_true_r. apply negb_true_iff.
      destruct (existsb _ _) eqn:X; [|reflexivity]. apply existsb_in in X. apply in_map_iff in X. destruct X as (y & Ey & Iy). apply lit_inj in Ey. subst y. apply in_map_iff in Iy. destruct Iy as (f & Ef & If).
      apply filter_In in If. destruct (nd_self _ _ _ sn H f (proj1 If) (proj2 If)) as (X & _). contradiction.
    - apply (blk_app (k + 4) [_] [_] [_] [_]).
      + apply set_block; [nm|apply wfx_app_vars; [cbn [wfx]; repeat split; auto; nm|reflexivity|now apply fine_names]|]. rewrite sh_app, sh_dot, Es, sh_vars. cbn [map]. rewrite app_nil_r, <- ?app_assoc. reflexivity.
      + replace (lit "self._init_from_buffer(_buf, 0, " ++ dec (sn_ds sn) ++ lit ", " ++ dec (sn_ps sn) ++ lit ")") with
          (sh (meth self "_init_from_buffer" [V "_buf"; num 0; num (sn_ds sn); num (sn_ps sn)])) by (shs; reflexivity).
        apply blk_expr; [wf|reflexivity].
  Qed.
  Lemma bind_names_length force xs l args kws : with_args (map f_name l) args kws (bind_args (map f_name l) (map (default force) l)) = Ok xs -> length xs = length (map f_name l).
  Proof. unfold with_args. destruct (clash _ _ _); [discriminate|]. intros E. eapply bind_args_length; [exact E|now rewrite !map_length]. Qed.
  Lemma pars_snd force l : map snd (pars force l) = map (default force) l.
  Proof. unfold pars. now rewrite map_map. Qed.
  Lemma not_self sn : node_described w fl nm sn -> ~ In "self" (names sn).
  Proof. intros H X. apply in_map_iff in X. destruct X as (f & Ef & If). apply filter_In in If. destruct (nd_self _ _ _ sn H f (proj1 If) (proj2 If)) as (X & _). contradiction. Qed.

  Lemma init_run c cls g sn dp args kws s : node_described w fl nm sn -> has_new c sn -> cls_text cls g -> (forall dp st, ev (rt w dp) [] (fun _ => None) g st = Ok (XCls c, st)) ->
    call_def (rt w (S dp)) (init_ps sn) (init_ast g sn) (XNew c :: map XV args) (map xkw kws) s =
    (do xs <- with_args (names sn) args kws (bind_args (names sn) (map (default None) (top sn)));
     do buf <- run_new fuel sn xs;
     do o <- init_from_buffer {| sbuf := buf; soffs := None |} 0 (sn_ds sn) (sn_ps sn);
     Ok (XV PNone, mkst buf (Some o))).
  Proof.
    intros H Hn T Eg.
    pose proof (call_first w (S dp) (init_ps sn) (pars None (top sn)) "self" (XNew c) (init_ast g sn) args kws s) as X. rewrite pars_fst, pars_snd in X.
    rewrite X; [|unfold init_ps; cbn [def_params]; rewrite (pars_def w fl None (top sn) (S dp) s (node_ready w fl nm sn None H)); reflexivity|apply (nd_names _ _ _ sn H)|now apply not_self]. clear X.
    destruct (with_args _ _ _ _) as [xs|] eqn:Ex; [|reflexivity]. cbn [bind]. assert (Lx := bind_names_length _ _ _ _ _ Ex).
    destruct (set_vars_get (map lit (names sn)) (map XV xs) (set_var (fun _ => None) (lit "self") (XNew c)) (NoDup_lit _ (nd_names _ _ _ sn H))) as (e & -> & Eo & Ee); [now rewrite !map_length in *|].
    set (L := lit "self" :: map lit (names sn) ++ flat_map assigned (init_ast g sn)).
    assert (LL : lower L).
    { unfold L. apply Forall_cons; [left; reflexivity|]. apply Forall_app. split.
      - apply Forall_map. eapply Forall_impl; [|exact (names_fine sn H)]. intros v (_ & F). now left.
      - cbn. apply Forall_cons; [now right|apply Forall_nil]. }
    assert (Es : e (lit "self") = Some (XNew c)).
    { rewrite Eo; [reflexivity|]. intros X. apply in_map_iff in X. destruct X as (y & Ey & Iy). apply lit_inj in Ey. subst y. now apply (not_self sn H). }
    unfold init_ast at 1, set. rewrite rb_set.
    rewrite (ev_call w (S dp) L e _ (XMeth (XCls c) (lit "__new")) _ s s (map XV xs) s); cycle 1.
    { rewrite ev_dot, (cls_ev w (S dp) L e cls g s LL T), Eg. cbn [bind]. now apply (cls_new_attr c sn). }
    { apply ev_vars; [|exact Ee]. unfold L. intros n Hn'. right. apply in_or_app. now left. }
    rewrite (call_new_text c sn dp xs s H Hn Lx). destruct (run_new fuel sn xs) as [buf|]; [|reflexivity]. cbn [bind]. rewrite rb_expr. unfold meth.
    set (e' := set_var e (lit "_buf") (XV (PBytes buf))).
    rewrite (ev_call w (S dp) L e' _ (XMeth (XNew c) (lit "_init_from_buffer")) _ _ (mkst buf (s_new s)) [XV (PBytes buf); XV (PInt 0); XV (PInt (sn_ds sn)); XV (PInt (sn_ps sn))] (mkst buf (s_new s))).
    - rewrite rt_new_call.
      change (call_new (lit "_init_from_buffer") [XV (PBytes buf); XV (PInt 0); XV (PInt (sn_ds sn)); XV (PInt (sn_ps sn))] (mkst buf (s_new s))) with
        (do o <- init_from_buffer {| sbuf := buf; soffs := None |} 0 (sn_ds sn) (sn_ps sn); Ok (XV PNone, mkst buf (Some o))).
      destruct (init_from_buffer _ _ _ _); reflexivity.
    - rewrite ev_dot. rewrite (ev_local w (S dp) L e' (lit "self") (XNew c)) by (split; [reflexivity|exact Es]). cbn [bind]. apply rt_new_attr. cbn. tauto.
    - eapply ev_all_cons; [apply (ev_local w (S dp) L e' (lit "_buf") (XV (PBytes buf))); split; [|reflexivity]|].
      { unfold L. apply in_existsb. right. apply in_or_app. right. now left. }
      eapply ev_all_cons; [apply ev_num|]. eapply ev_all_cons; [apply ev_num|]. eapply ev_all_cons; [apply ev_num|reflexivity].
  Qed.

  (** ** new_foo *)
  Section union.
    Context (sn : struct_node) (tag : field).
    Definition u_key := (f_name tag, f_order tag).
    Definition u_mine (f : field) : bool := negb (is_member f) || same_field f u_key.
    Definition u_top := filter visible (filter u_mine (sn_fields sn)).
    Definition u_others := filter (fun f => negb (u_mine f)) (sn_fields sn).
    Definition u_ps : list (str * option pexp) := (lit "cls", None) :: map (par fl (Some u_key)) u_top.
    Definition u_kws : list (str * pexp) := map (fun n => (n, xVar n)) (map lit (map f_name u_top)) ++ map (fun n => (n, V "_undefined")) (map lit (map f_name u_others)).
    Definition u_ast (g : pexp) : list pstmt :=
      [set "buf" (xApp (xDot g (lit "__new")) [] u_kws);
       qReturn (meth (V "cls") "from_buffer" [V "buf"; num 0; num (sn_ds sn); num (sn_ps sn)])].
    Lemma u_in f : In f u_top -> In f (top sn).
    Proof. unfold u_top. rewrite !filter_In. tauto. Qed.
    Lemma o_in f : In f u_others -> In f (top sn).
    Proof.
      unfold u_others. rewrite !filter_In. intros (A & B). split; [exact A|]. unfold u_mine, is_member in B. destruct f as [? ? [?|] t ? ? ?|]; try reflexivity. cbn in B. discriminate B.
    Qed.
    Lemma filter_comm {A} (p q : A -> bool) l : filter p (filter q l) = filter q (filter p l).
    Proof. induction l as [|a l IH]; [reflexivity|]. cbn [filter]. destruct (p a) eqn:P, (q a) eqn:Q; cbn [filter]; rewrite ?P, ?Q, IH; reflexivity. Qed.
    Lemma NoDup_filter {A B} (g : A -> B) p l : NoDup (map g l) -> NoDup (map g (filter p l)).
    Proof.
      induction l as [|a l IH]; intros N; [apply NoDup_nil|]. inversion N as [|? ? Na Nl]; subst. cbn [filter]. destruct (p a); [|now apply IH]. cbn [map]. apply NoDup_cons; [|now apply IH].
      intros X. apply Na. apply in_map_iff in X. destruct X as (b & E & Ib). apply filter_In in Ib. rewrite <- E. now apply in_map.
    Qed.
    Lemma map_inj_in {A B} (g : A -> B) l a b : NoDup (map g l) -> In a l -> In b l -> g a = g b -> a = b.
    Proof.
      induction l as [|x l IH]; intros N Ia Ib E; [destruct Ia|]. inversion N as [|? ? Nx Nl]; subst. destruct Ia as [->|Ia], Ib as [->|Ib]; auto.
      - exfalso. apply Nx. rewrite E. now apply in_map.
      - exfalso. apply Nx. rewrite <- E. now apply in_map.
    Qed.
    Hypothesis H : node_described w fl nm sn.
    Lemma u_nodup : NoDup (map f_name u_top).
    Proof. unfold u_top. rewrite filter_comm. apply NoDup_filter. apply (nd_names _ _ _ sn H). Qed.
    Lemma u_disjoint f g : In f u_top -> In g u_others -> f_name f <> f_name g.
    Proof.
      intros If Ig E. pose proof (map_inj_in f_name (top sn) f g (nd_names _ _ _ sn H) (u_in f If) (o_in g Ig) E) as X. subst g.
      unfold u_top in If. unfold u_others in Ig. rewrite !filter_In in If. rewrite filter_In in Ig. destruct If as ((_ & A) & _), Ig as (_ & B). rewrite A in B. discriminate B.
    Qed.
    Lemma o_nodup : NoDup (map f_name u_others).
    Proof.
      unfold u_others. replace (filter (fun f => negb (u_mine f)) (sn_fields sn)) with (filter (fun f => negb (u_mine f)) (top sn)).
      - apply NoDup_filter. apply (nd_names _ _ _ sn H).
      - rewrite filter_comm. fold u_others. assert (F : forall f, In f u_others -> visible f = true) by (intros f If; apply o_in in If; apply filter_In in If; apply If).
        revert F. generalize u_others. induction l as [|a l IH]; intros F; [reflexivity|]. cbn [filter]. rewrite (F a (or_introl eq_refl)). f_equal. apply IH. intros x Hx. apply F. now right.
    Qed.
    Lemma u_ready : ready w fl (Some u_key) u_top.
    Proof.
      pose proof (node_ready w fl nm sn (Some u_key) H) as Rd. unfold ready in *. rewrite Forall_forall in Rd. apply Forall_forall. intros f If. apply Rd, u_in, If.
    Qed.
    Lemma top_fine f : In f (top sn) -> fine (f_name f).
    Proof. intros If. pose proof (names_fine sn H) as F. rewrite Forall_forall in F. apply F. now apply in_map. Qed.
    Lemma NoDup_app_intro {A} (a b : list A) : NoDup a -> NoDup b -> (forall x, In x a -> ~ In x b) -> NoDup (a ++ b).
    Proof.
      induction a as [|x a IH]; intros Na Nb D; [exact Nb|]. inversion Na as [|? ? Nx Nr]; subst. cbn [app]. apply NoDup_cons.
      - intros X. apply in_app_or in X. destruct X as [X|X]; [contradiction|]. now apply (D x (or_introl eq_refl)).
      - apply IH; [exact Nr|exact Nb|]. intros y Hy. apply D. now right.
    Qed.
    Lemma u_all_nodup : NoDup (map f_name u_top ++ map f_name u_others).
    Proof.
      apply NoDup_app_intro; [apply u_nodup|apply o_nodup|]. intros x Hx Hy. apply in_map_iff in Hx. apply in_map_iff in Hy. destruct Hx as (f & <- & If), Hy as (g & E & Ig).
      now apply (u_disjoint f g If Ig).
    Qed.
    Lemma u_kws_fst : map fst u_kws = map lit (map f_name u_top ++ map f_name u_others).
    Proof. unfold u_kws. rewrite !map_app, !map_map. reflexivity. Qed.
    Lemma wfx_kws g kws : wfx g -> dotable g = true -> Forall (fun kw => name (fst kw) /\ wfx (snd kw)) kws -> distinct (map fst kws) = true -> wfx (xApp g [] kws).
    Proof.
      intros W D F N. cbn [wfx]. split; [exact W|]. split; [exact D|]. split; [exact Logic.I|]. split; [|exact N]. clear - F. induction F as [|kw kws N F IH]; [exact Logic.I|]. split; [exact N|exact IH].
    Qed.
    Lemma u_block k cls g : In tag (sn_fields sn) -> is_member tag = true -> cls_text cls g ->
      block k (new_union_text fl k cls sn tag) [qDef (Some (lit "classmethod")) (lit "new_" ++ lit (f_name tag)) u_ps (u_ast g)].
    Proof.
      intros It Mt T. destruct (cls_sh _ _ T) as (Es & Ws & Ds). pose proof u_ready as Rd.
      assert (Ft : fine (f_name tag)).
      { apply top_fine. apply filter_In. split; [exact It|]. unfold is_member in Mt. destruct tag as [? ? [?|] t ? ? ?|]; try reflexivity. discriminate Mt. }
      assert (E : new_union_text fl k cls sn tag =
         (deco_text k (Some (lit "classmethod")) ++ def_line k (lit "new_" ++ lit (f_name tag)) u_ps ::
           ([ln (k + 4) (lit "buf = " ++ cls ++ lit ".__new(" ++ args_text (map kw_text u_kws) ++ lit ")")] ++
            [ln (k + 4) (lit "return cls.from_buffer(buf, 0, " ++ dec (sn_ds sn) ++ lit ", " ++ dec (sn_ps sn) ++ lit ")")])) ++ [blank_line k]).
      { unfold def_line, u_ps. cbn [map]. change (par_text (lit "cls", None)) with (lit "cls"). rewrite (par_texts w fl (Some u_key) _ Rd). unfold new_union_text. rewrite !lns_cons, lns_nil, !Nat.add_0_r.
        unfold u_kws. rewrite map_app, !map_map. cbn [deco_text app].
        replace (map (fun x => kw_text (lit (f_name x), xVar (lit (f_name x)))) u_top) with (map (fun f => lit (f_name f) ++ lit "=" ++ lit (f_name f)) u_top) by (apply map_ext; intros f; unfold kw_text; cbn [fst snd]; now rewrite sh_var).
        reflexivity. }
      rewrite E. rewrite <- (app_nil_r [qDef _ _ _ _]). apply blk_app; [|apply blk_blank].
      apply blk_def with (k' := (k + 4)%nat); [nm|apply name_under; [reflexivity|vm_compute; tauto|apply Ft]| | | |lia|discriminate|].
      - apply Forall_cons; [split; [nm|exact Logic.I]|apply (pars_ok w), Rd].
      - apply (pars_ordered fl (Some u_key) u_top).
      - unfold u_ps. cbn [map fst distinct]. rewrite pars_names, (distinct_lit _ u_nodup), andb_true_r. apply negb_true_iff.
        destruct (existsb _ _) eqn:X; [|reflexivity]. apply existsb_in in X. apply in_map_iff in X. destruct X as (y & Ey & Iy). apply lit_inj in Ey. subst y. apply in_map_iff in Iy. destruct Iy as (f & Ef & If).
        apply u_in, filter_In in If. destruct (nd_self _ _ _ sn H f (proj1 If) (proj2 If)) as (_ & X). exfalso. apply X; [|exact Ef]. apply existsb_exists. eauto.
      - apply (blk_app (k + 4) [_] [_] [_] [_]).
        + apply set_block; [nm|apply wfx_kws; [cbn [wfx]; repeat split; auto; nm|reflexivity| |]|].
          * unfold u_kws. apply Forall_app. split; repeat apply Forall_map; apply Forall_forall; intros f If; cbn [fst snd wfx].
            -- pose proof (fine_name _ (top_fine f (u_in f If))). auto.
            -- split; [exact (fine_name _ (top_fine f (o_in f If)))|]. nm.
          * rewrite u_kws_fst. apply distinct_lit, u_all_nodup.
          * rewrite sh_app, sh_dot, Es. cbn [map app]. rewrite <- ?app_assoc. reflexivity.
        + apply ret_block; [wf|shs; reflexivity].
    Qed.
  End union.
End ctors.
