(** The text of __new, __init__, new_foo and of the constructors of groups:
    calling them is calling the constructors of Ctor.v. *)
From Coq Require Import Strings.String.
From Verif Require FloatBits Names CtorErr Const.
From Verif Require Import Base BaseFacts Spec Ptr Segment Builder Copy Struct List CopyList Case CaseFacts Loader Repr PyExpr
  Ctor CtorSlots CtorFacts PySyntax PySyntaxFacts PyPrint PyRun GenRun GenText TextSpec GenTextFacts GenTextRun GenNew.
From Coq Require Import Lists.List.
Local Notation length := Datatypes.length.
Local Open Scope string_scope.
Local Open Scope list_scope.
Local Open Scope Z_scope.

Lemma distinct_lit l : NoDup l -> distinct (map lit l) = true.
Proof.
  induction 1 as [|x l N H IH]; [reflexivity|]. cbn [map distinct]. rewrite IH, andb_true_r. apply negb_true_iff.
  destruct (existsb (str_eqb (lit x)) (map lit l)) eqn:E; [|reflexivity]. apply existsb_in in E. apply in_map_iff in E. destruct E as (y & Ey & Iy). apply lit_inj in Ey. subst. contradiction.
Qed.

(** ** Parameters *)
Notation xkw := keyword_arg.
Lemma find_kw_lit kws n : find_kw (map xkw kws) (lit n) = option_map XV (assoc kws n).
Proof.
  unfold find_kw, assoc. induction kws as [|[k v] r IH]; [reflexivity|]. cbn [map find keyword_arg fst snd]. rewrite lit_eqb. destruct (String.eqb k n); [reflexivity|exact IH].
Qed.
Definition vpar (nd : string * pyval) : str * option xv := (lit (fst nd), Some (XV (snd nd))).
(** the value of each parameter *)
Definition filled (kws : list (string * pyval)) (nd : string * pyval) : pyval := match assoc kws (fst nd) with Some x => x | None => snd nd end.
Lemma bind_kws nds kws : bind_params (map vpar nds) [] (map xkw kws) = Ok (map XV (map (filled kws) nds)).
Proof.
  induction nds as [|[n d] r IH]; [reflexivity|]. cbn [map bind_params vpar fst snd]. rewrite find_kw_lit. unfold filled at 1. cbn [fst snd].
  destruct (assoc kws n) as [x|]; cbn [option_map]; rewrite IH; reflexivity.
Qed.
Lemma bind_pos nds xs : length xs = length nds -> bind_params (map vpar nds) (map XV xs) [] = Ok (map XV xs).
Proof.
  revert xs. induction nds as [|[n d] r IH]; intros [|x xs] H; try discriminate H; [reflexivity|]. cbn [map bind_params vpar fst snd find_kw find].
  injection H as H. change (find_kw (@nil (str * xv)) (lit n)) with (@None xv). cbn iota. rewrite (IH xs H). reflexivity.
Qed.
Lemma assoc_cons_ne n x l m : m <> n -> assoc ((n, x) :: l) m = assoc l m.
Proof. intros N. unfold assoc. cbn [find fst]. destruct (String.eqb_spec n m); [congruence|reflexivity]. Qed.
Lemma existsb_or {A} (p q : A -> bool) l : existsb (fun x => p x || q x) l = existsb p l || existsb q l.
Proof. induction l as [|a l IH]; [reflexivity|]. cbn [existsb]. rewrite IH. destruct (p a), (q a), (existsb p l); reflexivity. Qed.
Lemma assoc_existsb kws n : existsb (fun kw : string * pyval => String.eqb (fst kw) n) kws = match assoc kws n with Some _ => true | None => false end.
Proof. unfold assoc. induction kws as [|[k v] r IH]; [reflexivity|]. cbn [existsb find fst]. destruct (String.eqb k n); [reflexivity|exact IH]. Qed.
Lemma bind_mixed nds : NoDup (map fst nds) -> forall args kws,
  bind_params (map vpar nds) (map XV args) (map xkw kws) =
  if clash (map fst nds) args kws then Err TypeError else Ok (map XV (map (filled (combine (map fst nds) args ++ kws)) nds)).
Proof.
  induction nds as [|[n d] r IH]; intros N args kws.
  - destruct args as [|x args]; [|reflexivity]. unfold clash. cbn. replace (existsb (fun _ : string * pyval => false) kws) with false; [reflexivity|]. induction kws; [reflexivity|assumption].
  - inversion N as [|? ? Nn Nr]; subst. destruct args as [|x args].
    + change (map XV []) with (@nil xv). rewrite bind_kws. unfold clash. cbn [length firstn existsb Nat.leb negb orb combine app].
      replace (existsb (fun _ : string * pyval => false) kws) with false; [reflexivity|]. clear. induction kws; [reflexivity|assumption].
    + cbn [map bind_params vpar fst snd]. rewrite find_kw_lit.
      assert (X : clash (n :: map fst r) (x :: args) kws = (match assoc kws n with Some _ => true | None => false end) || clash (map fst r) args kws).
      { unfold clash. cbn [length Nat.leb firstn existsb]. rewrite existsb_or, assoc_existsb. destruct (negb _), (assoc kws n); reflexivity. }
      rewrite X. destruct (assoc kws n) as [y|]; cbn [option_map orb]; [reflexivity|].
      rewrite (IH Nr args kws). destruct (clash (map fst r) args kws); [reflexivity|]. cbn [bind combine app map]. f_equal. f_equal.
      * unfold filled, assoc. cbn [find fst snd app]. rewrite String.eqb_refl. reflexivity.
      * f_equal. apply map_ext_in. intros [m e] Im. unfold filled. cbn [fst snd]. rewrite assoc_cons_ne; [reflexivity|]. intros ->. apply Nn. apply (in_map fst) in Im. exact Im.
Qed.

Section new.
  Context (w : world) (fl : Z -> str) (nm : string -> string -> names).
  Notation fuel := (w_fuel w).

  (** ** Parameters in the text *)
  Definition par (force : option (string * Z)) (f : field) : str * option pexp := (lit (f_name f), Some (dflt_ast fl force f)).
  Definition pars (force : option (string * Z)) (fs : list field) : list (string * pyval) := map (fun f => (f_name f, default force f)) fs.
  Definition ready (force : option (string * Z)) (fs : list field) : Prop := Forall (fun f => fine (f_name f) /\ good_dflt w fl force f (dflt_ast fl force f)) fs.
  Lemma par_texts force fs : ready force fs -> map par_text (map (par force) fs) = map (param_text fl force) fs.
  Proof. intros H. rewrite map_map. apply map_ext_in. intros f If. unfold ready in H. rewrite Forall_forall in H. destruct (H f If) as (_ & E & _). unfold par, par_text, kw_text, param_text. cbn [fst snd]. now rewrite E. Qed.
  Lemma pars_ok force fs : ready force fs -> Forall par_ok (map (par force) fs).
  Proof. intros H. apply Forall_map. eapply Forall_impl; [|exact H]. intros f (A & _ & B & _). split; [now apply fine_name|exact B]. Qed.
  Lemma pars_ordered force fs : ordered (map (par force) fs).
  Proof. induction fs as [|f r IH]; [exact Logic.I|]. cbn [map ordered par]. split; [destruct r; exact Logic.I|exact IH]. Qed.
  Lemma pars_names force fs : map fst (map (par force) fs) = map lit (map f_name fs).
  Proof. now rewrite !map_map. Qed.
  Lemma pars_def force fs dp s : ready force fs -> def_params (rt w dp) (map (par force) fs) s = Ok (map vpar (pars force fs)).
  Proof.
    intros H. revert s. induction H as [|f r (_ & _ & _ & _ & E) H IH]; intros s; [reflexivity|]. cbn [map def_params par pars]. rewrite E by apply Forall_nil. cbn [bind]. rewrite IH. reflexivity.
  Qed.
  Lemma vpar_names nds : map fst (map vpar nds) = map lit (map fst nds).
  Proof. now rewrite !map_map. Qed.
  Lemma pars_fst force fs : map fst (pars force fs) = map f_name fs.
  Proof. unfold pars. now rewrite map_map. Qed.

  (** ** __new *)
  Definition new_head (total : Z) : list pstmt :=
    [set "builder" (xApp (V "_SegmentBuilder") [] []); set "pos" (meth (V "builder") "allocate" [num total])].
  Definition new_tail : list pstmt := [qReturn (meth (V "builder") "as_string" [])].
  Definition new_ps (sn : struct_node) := map (par None) (filter visible (sn_fields sn)).
  Definition sn_union (sn : struct_node) := match sn_utag sn with Some u => Some ("anonymous", u * 2)%Z | None => None end.

  Lemma node_ready sn force : node_described w fl nm sn -> ready force (filter visible (sn_fields sn)).
  Proof.
    intros H. apply Forall_forall. intros f If. apply filter_In in If. destruct If as (If & Vf). pose proof (nd_fields _ _ _ sn H f If Vf) as D.
    split; [eapply described_fine, D|eapply dflt_ok, D].
  Qed.

  (** the generator does not fail *)
  Lemma described_parses f : forall b prefix, described w fl nm b prefix f -> Ctor.parses f = true.
  Proof.
    induction f as [n o dc t off ex d|n o dc nl u fs IH] using field_ind'; intros b prefix H; [reflexivity|].
    pose proof (described_all _ _ _ _ _ _ _ _ _ _ _ H) as Ha. destruct H as (_ & _ & _ & Hv & _ & _). cbn [Ctor.parses]. rewrite Hv, orb_true_r. cbn [andb].
    rewrite Forall_forall in IH. clear Hv. set (v := varname prefix n) in *.
    assert (X : forall g, In g fs -> negb (visible g) || Ctor.parses g = true).
    { intros g Ig. destruct (visible g) eqn:Vg; [|reflexivity]. cbn. eapply IH; [exact Ig|]. apply Ha. apply filter_In. auto. }
    clear - X. induction fs as [|g r IHr]; [reflexivity|]. rewrite (X g (or_introl eq_refl)). cbn [andb]. apply IHr. intros x Hx. apply X. now right.
  Qed.
  Lemma NoDup_nodup_eq (l : list string) : NoDup l -> nodup String.string_dec l = l.
  Proof. intros H. apply nodup_fixed_point. exact H. Qed.
  Lemma node_gen sn : node_described w fl nm sn -> gen sn = Ok (map (fun u => SNone (curtag u)) (all_unions sn) ++ emit_fields (sn_ds sn) (sn_union sn) "" (sn_fields sn)).
  Proof.
    intros H. unfold gen. rewrite NoDup_nodup_eq by apply (nd_names _ _ _ sn H). destruct (list_eq_dec _ _ _) as [_|N]; [|contradiction].
    replace (forallb Ctor.parses (filter visible (sn_fields sn)) && params_ok sn) with true; [reflexivity|]. symmetry. apply andb_true_intro. split.
    - apply forallb_forall. intros f If. apply filter_In in If. destruct If as (If & Vf). eapply described_parses, (nd_fields _ _ _ sn H f If Vf).
    - unfold params_ok. apply forallb_forall. intros f If. apply filter_In in If. destruct If as (If & Vf). destruct (nd_self _ _ _ sn H f If Vf) as (A & B).
      apply andb_true_intro. split; [now apply negb_true_iff, String.eqb_neq|]. apply negb_true_iff. destruct (existsb is_member (filter visible (sn_fields sn))) eqn:E; [|reflexivity].
      cbn [andb]. apply String.eqb_neq, B. apply existsb_exists in E. destruct E as (g & Ig & Mg). apply existsb_exists. exists g. split; [|exact Mg]. apply filter_In in Ig. apply Ig.
  Qed.

  Lemma corr_tags us : Forall fine us ->
    exists ast, corr w ast (fun k => map (fun u => ln k (lit (curtag u) ++ lit " = None")) us) (map (fun u => SNone (curtag u)) us) [].
  Proof.
    induction 1 as [|u us F H (ast & C)]; [exists []; apply corr_nil|]. eexists. cbn [map].
    exact (corr_app w _ _ [_] [] _ _ _ [] (corr_none w (curtag u) (fine_curtag u F)) C (fun x Hx => or_introl Hx)).
  Qed.
  Lemma unions_fine f : forall b prefix, described w fl nm b prefix f -> prefix = "" \/ fine prefix -> Forall fine (unions_of prefix f).
  Proof.
    induction f as [n o dc t off ex d|n o dc nl u fs IH] using field_ind'; intros b prefix H P; [apply Forall_nil|].
    pose proof (described_all _ _ _ _ _ _ _ _ _ _ _ H) as Ha. pose proof (fine_varname prefix n P (described_fine _ _ _ _ _ _ H)) as Fv. rewrite unions_of_group. set (v := varname prefix n) in *.
    apply Forall_app. split; [destruct u; repeat constructor; apply Fv|]. rewrite Forall_forall in IH. apply Forall_forall. intros x Ix. apply in_flat_map in Ix. destruct Ix as (g & Ig & Ix).
    assert (Ig' := Ig). apply filter_In in Ig'. pose proof (IH g (proj1 Ig') _ v (Ha g Ig) (or_intror Fv)) as F. rewrite Forall_forall in F. now apply F.
  Qed.

  Definition new_text_body (k : nat) (sn : struct_node) : list str :=
    map (fun u => ln k (lit (curtag u) ++ lit " = None")) (all_unions sn) ++ flat_map (new_field_text fl nm k (sn_ds sn) (sn_union sn) "") (filter visible (sn_fields sn)).
  Lemma new_corr sn : node_described w fl nm sn -> exists ast, corr w ast (fun k => new_text_body k sn)
    (map (fun u => SNone (curtag u)) (all_unions sn) ++ emit_fields (sn_ds sn) (sn_union sn) "" (sn_fields sn)) (map f_name (filter visible (sn_fields sn))).
  Proof.
    intros H.
    assert (Fa : fine "anonymous") by (repeat split).
    assert (Fu : Forall fine (all_unions sn)).
    { unfold all_unions. apply Forall_app. split; [destruct (sn_utag sn); [apply Forall_cons; [exact Fa|apply Forall_nil]|apply Forall_nil]|]. apply Forall_forall. intros x Ix. apply in_flat_map in Ix. destruct Ix as (g & Ig & Ix).
      apply filter_In in Ig. pose proof (unions_fine g _ _ (nd_fields _ _ _ sn H g (proj1 Ig) (proj2 Ig)) (or_introl eq_refl)) as F. rewrite Forall_forall in F. now apply F. }
    destruct (corr_tags _ Fu) as (a & A).
    destruct (corr_fields w fl nm (filter visible (sn_fields sn)) (sn_ds sn) (sn_union sn) "") as (b & B).
    { intros g Ig. apply filter_In in Ig. eapply corr_field; [exact (nd_fields _ _ _ sn H g (proj1 Ig) (proj2 Ig))|now left|unfold sn_union; destruct (sn_utag sn); reflexivity|].
      unfold sn_union. destruct (sn_utag sn); [exact Fa|exact Logic.I]. }
    exists (a ++ b). eapply corr_app; [eapply corr_sub; [exact A|apply incl_nil_l]|exact B|]. intros v Hv. now left.
  Qed.

  Lemma new_block k sn ast : node_described w fl nm sn -> corr w ast (fun k => new_text_body k sn)
    (map (fun u => SNone (curtag u)) (all_unions sn) ++ emit_fields (sn_ds sn) (sn_union sn) "" (sn_fields sn)) (map f_name (filter visible (sn_fields sn))) ->
    block k (new_text fl nm k sn) [qDef (Some (lit "staticmethod")) (lit "__new") (new_ps sn) (new_head ((sn_ds sn + sn_ps sn) * 8) ++ ast ++ new_tail)].
  Proof.
    intros H C. unfold new_text. pose proof (node_ready sn None H) as Rd.
    assert (E : lns k [(0%nat, lit "@staticmethod");
         (0%nat, lit "def __new(" ++ args_text (map (param_text fl None) (filter visible (sn_fields sn))) ++ lit "):");
         (4%nat, lit "builder = _SegmentBuilder()");
         (4%nat, lit "pos = builder.allocate(" ++ dec ((sn_ds sn + sn_ps sn) * 8) ++ lit ")")] ++
       map (fun u => ln (k + 4) (lit (curtag u) ++ lit " = None")) (all_unions sn) ++
       flat_map (new_field_text fl nm (k + 4) (sn_ds sn) (sn_union sn) "") (filter visible (sn_fields sn)) ++
       [ln (k + 4) (lit "return builder.as_string()"); blank_line k] =
       (deco_text k (Some (lit "staticmethod")) ++ def_line k (lit "__new") (new_ps sn) ::
        ([ln (k + 4) (lit "builder = _SegmentBuilder()"); ln (k + 4) (lit "pos = builder.allocate(" ++ dec ((sn_ds sn + sn_ps sn) * 8) ++ lit ")")] ++
         new_text_body (k + 4) sn ++ [ln (k + 4) (lit "return builder.as_string()")])) ++ [blank_line k]).
    { unfold new_text_body, def_line, new_ps. rewrite (par_texts None _ Rd). rewrite !lns_cons, lns_nil, !Nat.add_0_r. cbn [deco_text app]. rewrite <- !app_assoc. reflexivity. }
    unfold sn_union in E. rewrite E. rewrite <- (app_nil_r [qDef _ _ _ _]). apply blk_app; [|apply blk_blank].
    apply blk_def with (k' := (k + 4)%nat); [nm|nm|apply pars_ok, Rd|apply pars_ordered| |lia|discriminate|].
    - unfold new_ps. rewrite pars_names. apply distinct_lit, H.
    - apply blk_app; [|apply blk_app; [apply C|]].
      + apply (blk_app (k + 4) [_] [_] [_] [_]); (apply set_block; [nm|wf|shs; reflexivity]).
      + apply ret_block; [wf|shs; reflexivity].
  Qed.
End new.
