(** Running the text of new_foo; the constructors of groups. *)
From Coq Require Import Strings.String.
From Verif Require FloatBits Names CtorErr Const.
From Verif Require Import Base BaseFacts Spec Ptr Segment Builder Copy Struct List CopyList Case CaseFacts Loader Repr PyExpr
  Ctor CtorSlots CtorFacts PySyntax PySyntaxFacts PyPrint PyRun GenRun GenText TextSpec GenTextFacts GenTextRun GenNew GenNew2 GenNew3 GenNew4.
From Coq Require Import Lists.List.
Local Notation length := Datatypes.length.
Local Open Scope string_scope.
Local Open Scope list_scope.
Local Open Scope Z_scope.

(** keyword arguments in a call *)
Lemma ev_app_kws w dp L e f g kws ks s : ev (rt w dp) L e f s = Ok (g, s) ->
  Forall2 (fun kw k => fst kw = fst k /\ ev (rt w dp) L e (snd kw) s = Ok (snd k, s)) kws ks ->
  ev (rt w dp) L e (xApp f [] kws) s = r_call (rt w dp) g [] ks s.
Proof.
  intros F K. cbn [ev]. rewrite F. cbn [bind].
  assert (X : (fix allk (l : list (str * pexp)) (s0 : st) {struct l} : res (list (str * xv) * st) :=
     match l with
     | [] => Ok ([], s0)
     | (k, a) :: r => do (v, s1) <- ev (rt w dp) L e a s0; do (vs, s2) <- allk r s1; Ok ((k, v) :: vs, s2)
     end) kws s = Ok (ks, s)).
  { induction K as [|[k a] [k' v] kws ks (E1 & E2) K IH]; [reflexivity|]. cbn [fst snd] in *. subst k'. rewrite E2. cbn [bind]. rewrite IH. reflexivity. }
  rewrite X. reflexivity.
Qed.
Lemma assoc_app a b n : assoc (a ++ b) n = match assoc a n with Some x => Some x | None => assoc b n end.
Proof. unfold assoc. induction a as [|[k v] a IH]; [reflexivity|]. cbn [app find fst]. destruct (String.eqb k n); [reflexivity|exact IH]. Qed.
Lemma assoc_combine ns xs n : length xs = length ns -> In n ns -> exists x, assoc (combine ns xs) n = Some x.
Proof.
  revert xs. induction ns as [|m ns IH]; intros [|x xs] E I; try discriminate; [destruct I|]. cbn [combine]. unfold assoc. cbn [find fst].
  destruct (String.eqb_spec m n) as [->|N]; [eauto|]. destruct I as [I|I]; [contradiction|]. injection E as E. exact (IH xs E I).
Qed.
Lemma assoc_combine_none ns xs n : ~ In n ns -> assoc (combine ns xs) n = None.
Proof.
  revert xs. induction ns as [|m ns IH]; intros [|x xs] N; try reflexivity. cbn [combine]. rewrite assoc_cons_ne; [apply IH; intros X; apply N; now right|]. intros ->. apply N. now left.
Qed.
Lemma assoc_const {A} (g : A -> string) l x n : In n (map g l) -> assoc (map (fun f => (g f, x)) l) n = Some x.
Proof.
  induction l as [|a l IH]; intros I; [destruct I|]. unfold assoc. cbn [map find fst]. destruct (String.eqb_spec (g a) n) as [E|N]; [reflexivity|]. destruct I as [I|I]; [contradiction|]. exact (IH I).
Qed.

Section ctors.
  Context (w : world) (fl : Z -> str) (nm : string -> string -> names).
  Notation fuel := (w_fuel w).
  Notation top sn := (filter visible (sn_fields sn)).
  Notation names sn := (map f_name (filter visible (sn_fields sn))).

  Lemma call_new_kws c sn dp kws s : node_described w fl nm sn -> has_new w fl nm c sn -> (forall kw, In kw kws -> In (fst kw) (names sn)) ->
    r_call (rt w (S dp)) (XMeth (XCls c) (lit "__new")) [] (map xkw kws) s = (do buf <- run_new fuel sn (map (filled kws) (pars None (top sn))); Ok (XV (PBytes buf), mkst buf (s_new s))).
  Proof.
    intros H (ast & C & D) Hk. cbn [rt r_call]. rewrite D. change (is (lit "staticmethod") "classmethod") with false. cbn iota.
    pose proof (call_named w dp (new_ps fl sn) (pars None (top sn)) (new_body sn ast) [] kws s (pars_def w fl None (top sn) dp s (node_ready w fl nm sn None H))) as X.
    rewrite pars_fst in X. specialize (X (nd_names _ _ _ sn H)). change (map XV []) with (@nil xv) in X. rewrite X.
    replace (with_args (names sn) [] kws (bind_args (names sn) (map snd (pars None (top sn))))) with (@Ok (list pyval) (map (filled kws) (pars None (top sn)))).
    - cbn [bind]. apply (new_run w fl nm); assumption.
    - symmetry. unfold with_args, clash. cbn [length Nat.leb negb orb firstn existsb]. replace (existsb (fun _ : string * pyval => false) kws) with false by (clear; induction kws; [reflexivity|assumption]).
      unfold bind_args. rewrite known_app.
      replace (forallb _ kws) with true.
      + rewrite combine_nil. cbn [app]. rewrite <- (pars_fst None (top sn)), GenNew4.combine_split. reflexivity.
      + symmetry. apply forallb_forall. intros kw Ik. apply existsb_exists. exists (fst kw). split; [now apply Hk|apply String.eqb_refl].
  Qed.

  Section union.
    Context (sn : struct_node) (tag : field) (H : node_described w fl nm sn).
    Notation ut := (u_top sn tag).
    Notation uo := (u_others sn tag).
    Definition sent xs : list (string * pyval) := combine (map f_name ut) xs ++ map (fun f => (f_name f, PUndef)) uo.
    Lemma sent_filled xs : length xs = length (map f_name ut) ->
      map (filled (sent xs)) (pars None (top sn)) = map (fun f => match assoc (combine (map f_name ut) xs) (f_name f) with Some x => x | None => PUndef end) (top sn).
    Proof.
      intros E. unfold pars. rewrite map_map. apply map_ext_in. intros f If. unfold filled, sent. cbn [fst snd]. rewrite assoc_app.
      destruct (u_mine tag f) eqn:M.
      - destruct (assoc_combine (map f_name ut) xs (f_name f) E) as (x & ->); [|reflexivity]. apply in_map. unfold u_top. apply filter_In in If. rewrite !filter_In. tauto.
      - assert (Io : In f uo) by (apply filter_In in If; unfold u_others; rewrite filter_In, M; tauto).
        rewrite assoc_combine_none; [now rewrite (assoc_const f_name uo PUndef (f_name f)) by now apply in_map|].
        intros X. apply in_map_iff in X. destruct X as (g & Eg & Ig). now apply (u_disjoint w fl nm sn tag H g f Ig Io).
    Qed.
    Lemma not_cls : In tag (sn_fields sn) -> is_member tag = true -> ~ In "cls" (map f_name ut).
    Proof.
      intros It Mt X. apply in_map_iff in X. destruct X as (f & Ef & If). apply u_in, filter_In in If. destruct (nd_self _ _ _ sn H f (proj1 If) (proj2 If)) as (_ & X). apply X; [|exact Ef]. apply existsb_exists. eauto.
    Qed.
    Lemma u_run c cls g dp args kws s : has_new w fl nm c sn -> keeps w c -> cls_text cls g -> (forall dp st, ev (rt w dp) [] (fun _ => None) g st = Ok (XCls c, st)) ->
      In tag (sn_fields sn) -> is_member tag = true ->
      call_def (rt w (S dp)) (u_ps fl sn tag) (u_ast sn tag g) (XCls c :: map XV args) (map xkw kws) s =
      (do xs <- with_args (map f_name ut) args kws (bind_args (map f_name ut) (map (default (Some (u_key tag))) ut));
       do buf <- run_new fuel sn (map (fun f => match assoc (combine (map f_name ut) xs) (f_name f) with Some x => x | None => PUndef end) (top sn));
       do o <- init_from_buffer {| sbuf := buf; soffs := None |} 0 (sn_ds sn) (sn_ps sn);
       Ok (XObj c o, mkst buf (s_new s))).
    Proof.
      intros Hn Kc T Eg It Mt.
      pose proof (call_first w (S dp) (u_ps fl sn tag) (pars (Some (u_key tag)) ut) "cls" (XCls c) (u_ast sn tag g) args kws s) as X. rewrite pars_fst, pars_snd in X.
      rewrite X; [|unfold u_ps; cbn [def_params]; rewrite (pars_def w fl (Some (u_key tag)) ut (S dp) s (u_ready w fl nm sn tag H)); reflexivity|apply (u_nodup w fl nm sn tag H)|now apply not_cls]. clear X.
      destruct (with_args _ _ _ _) as [xs|] eqn:Ex; [|reflexivity]. cbn [bind]. assert (Lx := bind_names_length _ _ _ _ _ Ex).
      destruct (set_vars_get (map lit (map f_name ut)) (map XV xs) (set_var (fun _ => None) (lit "cls") (XCls c)) (NoDup_lit _ (u_nodup w fl nm sn tag H))) as (e & -> & Eo & Ee); [now rewrite !map_length in *|].
      set (L := lit "cls" :: map lit (map f_name ut) ++ flat_map assigned (u_ast sn tag g)).
      assert (LL : lower L).
      { unfold L. apply Forall_cons; [left; reflexivity|]. apply Forall_app. split.
        - apply Forall_map, Forall_map, Forall_forall. intros f If. left. apply (top_fine w fl nm sn H f). now apply u_in in If.
        - cbn. apply Forall_cons; [now left|apply Forall_nil]. }
      assert (Es : e (lit "cls") = Some (XCls c)).
      { rewrite Eo; [reflexivity|]. intros X. apply in_map_iff in X. destruct X as (y & Ey & Iy). apply lit_inj in Ey. subst y. now apply (not_cls It Mt). }
      unfold u_ast at 1, set. rewrite rb_set.
      rewrite (ev_app_kws w (S dp) L e _ (XMeth (XCls c) (lit "__new")) _ (map xkw (sent xs)) s); cycle 1.
      { rewrite ev_dot, (cls_ev w (S dp) L e cls g s LL T), Eg. cbn [bind]. now apply (cls_new_attr w fl nm c sn). }
      { unfold u_kws, sent. rewrite map_app. apply Forall2_app.
        - assert (Ic : incl (map lit (map f_name ut)) L) by (unfold L; intros n Hn'; right; apply in_or_app; now left).
          clear - Ee Lx Ic. revert xs Ee Lx. generalize (map f_name ut) Ic. induction l as [|n l IH]; intros Icl [|x xs] Ee Lx; try discriminate Lx; [apply Forall2_nil|].
          cbn [map combine] in *. injection Ee as E1 E2. injection Lx as Lx. apply Forall2_cons; [|apply IH; try assumption; intros m Hm; apply Icl; now right].
          cbn [fst snd keyword_arg]. split; [reflexivity|]. apply ev_local. split; [apply in_existsb, Icl; now left|exact E1].
        - clear - LL. generalize uo. induction l as [|f l IH]; [apply Forall2_nil|]. cbn [map]. apply Forall2_cons; [|exact IH]. cbn [fst snd keyword_arg]. split; [reflexivity|]. now apply ev_undefined. }
      rewrite (call_new_kws c sn dp (sent xs) s H Hn).
      2:{ intros kw Ik. unfold sent in Ik. apply in_app_or in Ik. destruct Ik as [Ik|Ik].
          - destruct kw as [n v]. apply in_combine_l in Ik. cbn [fst]. apply in_map_iff in Ik. destruct Ik as (f & <- & If). apply in_map, u_in with (tag := tag), If.
          - apply in_map_iff in Ik. destruct Ik as (f & <- & If). cbn [fst]. apply in_map, o_in with (tag := tag), If. }
      rewrite (sent_filled xs Lx).
      destruct (run_new fuel sn _) as [buf|]; [|reflexivity]. cbn [bind]. rewrite rb_return. unfold meth.
      set (e' := set_var e (lit "buf") (XV (PBytes buf))).
      rewrite (ev_call w (S dp) L e' _ (XMeth (XCls c) (lit "from_buffer")) _ _ (mkst buf (s_new s)) [XV (PBytes buf); XV (PInt 0); XV (PInt (sn_ds sn)); XV (PInt (sn_ps sn))] (mkst buf (s_new s))).
      - rewrite rt_from_buffer by exact Kc.
        change (call_from_buffer c [XV (PBytes buf); XV (PInt 0); XV (PInt (sn_ds sn)); XV (PInt (sn_ps sn))] []) with
          (do o <- init_from_buffer {| sbuf := buf; soffs := None |} 0 (sn_ds sn) (sn_ps sn); Ok (XObj c o)).
        destruct (init_from_buffer _ _ _ _); reflexivity.
      - rewrite ev_dot. rewrite (ev_local w (S dp) L e' (lit "cls") (XCls c)) by (split; [reflexivity|exact Es]). cbn [bind]. apply rt_cls_attr; [exact Kc|cbn; tauto].
      - eapply ev_all_cons; [apply (ev_local w (S dp) L e' (lit "buf") (XV (PBytes buf))); split; [|reflexivity]|].
        { unfold L. apply in_existsb. right. apply in_or_app. right. now left. }
        eapply ev_all_cons; [apply ev_num|]. eapply ev_all_cons; [apply ev_num|]. eapply ev_all_cons; [apply ev_num|reflexivity].
    Qed.
  End union.

  (** ** The constructors of groups *)
  Section like.
    Context (n : string) (o : Z) (dc : option Z) (u : option Z) (fs : list field) (b : bool) (prefix : string).
    Hypothesis H : described w fl nm b prefix (FGroup n o dc false u fs).
    Hypothesis N : NoDup (map f_name (filter visible fs)).
    Definition like_ast : list pstmt := [qReturn (xTup (map xVar (map lit (map f_name (filter visible fs)))))].
    Lemma like_ready : ready w fl None (filter visible fs).
    Proof.
      apply Forall_forall. intros f If. pose proof (described_all _ _ _ _ _ _ _ _ _ _ _ H f If) as D. split; [eapply described_fine, D|eapply dflt_ok, D].
    Qed.
    Lemma like_ne : filter visible fs <> [].
    Proof.
      destruct H as (_ & _ & _ & Hv & _). intros E. apply existsb_exists in Hv. destruct Hv as (g & Ig & Vg). assert (X : In g (filter visible fs)) by (apply filter_In; auto). rewrite E in X. destruct X.
    Qed.
    Lemma like_block k : name (like_name (lit n)) -> block k (like_text fl k (lit n) fs) [qDef (Some (lit "staticmethod")) (like_name (lit n)) (map (par fl None) (filter visible fs)) like_ast].
    Proof.
      intros Nl. pose proof like_ready as Rd. pose proof like_ne as Ne. unfold like_text.
      assert (E : lns k [(0%nat, lit "@staticmethod");
         (0%nat, lit "def " ++ like_name (lit n) ++ lit "(" ++ args_text (map (param_text fl None) (filter visible fs)) ++ lit "):");
         (4%nat, lit "return " ++ args_text (map (fun f => lit (f_name f)) (filter visible fs)) ++ lit ",")] ++ [blank_line k] =
         (deco_text k (Some (lit "staticmethod")) ++ def_line k (like_name (lit n)) (map (par fl None) (filter visible fs)) ::
          [ln (k + 4) (lit "return " ++ args_text (map lit (map f_name (filter visible fs))) ++ lit ",")]) ++ [blank_line k]).
      { unfold def_line. rewrite (par_texts w fl None _ Rd), !lns_cons, lns_nil, !Nat.add_0_r, map_map. reflexivity. }
      rewrite E. rewrite <- (app_nil_r [qDef _ _ _ _]). apply blk_app; [|apply blk_blank].
      apply blk_def with (k' := (k + 4)%nat); [nm|exact Nl|apply (pars_ok w), Rd|apply pars_ordered| |lia|discriminate|].
      - rewrite pars_names. now apply distinct_lit.
      - apply blk_return_names.
        + intros X. apply map_eq_nil in X. apply map_eq_nil in X. contradiction.
        + apply Forall_map, Forall_map, Forall_forall. intros f If. unfold ready in Rd. rewrite Forall_forall in Rd. apply fine_name, (Rd f If).
    Qed.
    Lemma like_run dp args kws s : call_def (rt w dp) (map (par fl None) (filter visible fs)) like_ast (map XV args) (map xkw kws) s =
      (do x <- with_args (map f_name (filter visible fs)) args kws (group_ctor fs); Ok (XV x, s)).
    Proof.
      pose proof (call_named w dp (map (par fl None) (filter visible fs)) (pars None (filter visible fs)) like_ast args kws s (pars_def w fl None _ dp s like_ready)) as X.
      rewrite pars_fst, pars_snd in X. rewrite (X N). clear X. unfold with_args, group_ctor. destruct (clash _ _ _); [reflexivity|].
      destruct (bind_args _ _ _) as [xs|] eqn:Ex; [|reflexivity]. cbn [bind].
      assert (Lx : length xs = length (map f_name (filter visible fs))) by (eapply bind_args_length; [exact Ex|now rewrite !map_length]).
      destruct (set_vars_get (map lit (map f_name (filter visible fs))) (map XV xs) (fun _ => None) (NoDup_lit _ N)) as (e & -> & _ & Ee); [now rewrite !map_length in *|].
      unfold like_ast. cbn [flat_map assigned app]. rewrite app_nil_r, rb_return.
      assert (Y : forall L, incl (map lit (map f_name (filter visible fs))) L -> ev (rt w dp) L e (xTup (map xVar (map lit (map f_name (filter visible fs))))) s = Ok (XV (PSeq xs), s)).
      { intros L I. pose proof (ev_vars w dp L e _ s _ I Ee) as A. cbn [ev].
        assert (Z : forall l s, (fix all (l : list pexp) (s : st) : res (list xv * st) :=
          match l with [] => Ok ([], s) | a :: r => do (v, s) <- ev (rt w dp) L e a s; do (vs, s) <- all r s; Ok (v :: vs, s) end) l s = ev_all (rt w dp) L e l s).
        { clear. induction l as [|a l IH]; intros s; [reflexivity|]. cbn [ev_all]. destruct (ev (rt w dp) L e a s) as [[v s']|]; [|reflexivity]. cbn [bind]. rewrite IH. reflexivity. }
        rewrite Z, A. cbn [bind]. replace (r_tuple (rt w dp)) with (fun l => do vs <- x_tuple l; Ok (XV (PSeq vs))) by (destruct dp; reflexivity).
        assert (T : x_tuple (map XV xs) = Ok xs) by (clear; induction xs as [|a l IH]; [reflexivity|cbn [map x_tuple]; rewrite IH; reflexivity]). rewrite T. reflexivity. }
      rewrite Y by (intros x Hx; exact Hx). reflexivity.
    Qed.
  End like.
End ctors.
