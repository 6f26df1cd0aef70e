(** Running the text of __new. *)
From Coq Require Import Strings.String.
From Verif Require FloatBits Names CtorErr Const.
From Verif Require Import Base BaseFacts Spec Ptr Segment Builder Copy Struct List CopyList Case CaseFacts Loader Repr PyExpr
  Ctor CtorSlots CtorFacts PySyntax PySyntaxFacts PyPrint PyRun GenRun GenText TextSpec GenTextFacts GenTextRun GenNew GenNew2.
From Coq Require Import Lists.List.
Local Notation length := Datatypes.length.
Local Open Scope string_scope.
Local Open Scope list_scope.
Local Open Scope Z_scope.

(** ** builder is still the builder at the end *)
Definition spared (v : string) : Prop := v <> "builder".
Fixpoint spares (q : stmt) : Prop :=
  match q with
  | SNone v | SCheckTag v => spared v
  | SIfDef _ l => (fix all l := match l with [] => True | q :: r => spares q /\ all r end) l
  | SUnpack vs _ => Forall spared vs
  | SNull v _ => spared (v ++ "_is_null") /\ spared (v ++ "_value")
  | _ => True
  end.
Fixpoint spares_all (l : list stmt) : Prop := match l with [] => True | q :: r => spares q /\ spares_all r end.
Lemma spares_app a b : spares_all (a ++ b) <-> spares_all a /\ spares_all b.
Proof. induction a as [|q a IH]; cbn; tauto. Qed.
Lemma under_spared v : In 95 (lit v) -> spared v.
Proof. intros H ->. vm_compute in H. decompose [or] H; try discriminate; contradiction. Qed.
Lemma set_all_spared vs : forall xs e e', set_all e vs xs = Some e' -> Forall spared vs -> e' "builder" = e "builder".
Proof.
  induction vs as [|v vs IH]; intros [|x xs] e e' E F; cbn in E; try discriminate; [congruence|]. inversion F; subst. rewrite (IH _ _ _ E H2). apply setv_other. intros X. now apply H1.
Qed.
Section spare.
  Context (fuel : nat).
  Definition keeps_builder (q : stmt) : Prop := forall e b e' b', exec_stmt fuel q (e, b) = Ok (e', b') -> spares q -> e "builder" = Some PBuilder -> e' "builder" = Some PBuilder.
  Lemma exec_spares l : Forall keeps_builder l -> forall e b e' b', exec fuel l (e, b) = Ok (e', b') -> spares_all l -> e "builder" = Some PBuilder -> e' "builder" = Some PBuilder.
  Proof.
    induction 1 as [|q l Q H IH]; intros e b e' b' E S B; cbn [exec] in E; [injection E as <- <-; exact B|]. destruct S as (S1 & S2).
    destruct (exec_stmt fuel q (e, b)) as [[e1 b1]|] eqn:E1; [|discriminate E]. cbn [bind] in E. eapply IH; [exact E|exact S2|]. eapply Q; eassumption.
  Qed.
  Fixpoint stmt_spares (q : stmt) : keeps_builder q.
  Proof.
    intros e b e' b'. destruct q; intros E S B; try (cbn [exec_stmt] in E).
    - apply ok_inj in E. injection E as <- <-. rewrite setv_other; [exact B|]. intros X. now apply S.
    - rename body into l. assert (F : Forall keeps_builder l) by (clear - stmt_spares; induction l as [|q l IH]; constructor; [apply stmt_spares|exact IH]).
      assert (S' : spares_all l) by exact S. change (exec_stmt fuel (SIfDef v l) (e, b) = Ok (e', b')) in E. rewrite CtorErr.exec_if in E.
      destruct (lookup e v) as [x|]; [|discriminate E]. cbn [bind] in E.
      assert (D : (e, b) = (e', b') \/ exec fuel l (e, b) = Ok (e', b')) by (destruct x; try (right; exact E); left; now apply ok_inj in E).
      destruct D as [D|D]; [injection D as <- <-; exact B|]. eapply exec_spares; eassumption.
    - destruct (lookup e v) as [x|]; [|discriminate E]. cbn [bind] in E. destruct x; try discriminate E. apply ok_inj in E. injection E as <- <-. rewrite setv_other; [exact B|]. intros X. now apply S.
    - destruct (the_builder e); [|discriminate E]. cbn [bind] in E. destruct (b_write Fh b off val); [|discriminate E]. apply ok_inj in E. injection E as <- <-. exact B.
    - destruct (lookup e g) as [x|]; [|discriminate E]. cbn [bind] in E. destruct (py_iter x) as [xs|]; [|discriminate E]. cbn [bind] in E.
      destruct (set_all e vs xs) as [e1|] eqn:Es; [|discriminate E]. apply ok_inj in E. injection E as <- <-. rewrite (set_all_spared _ _ _ _ Es S). exact B.
    - destruct S as (S1 & S2). destruct (lookup e v) as [x|]; [|discriminate E]. cbn [bind] in E.
      assert (D : exists z y, (setv (setv e (v ++ "_is_null") z) (v ++ "_value") y, b) = (e', b')) by (destruct x; apply ok_inj in E; eauto).
      destruct D as (z & y & D). injection D as <- <-. rewrite !setv_other; [exact B| |]; intros X; [now apply S1|now apply S2].
    - destruct (lookup e v) as [x|] eqn:Ex; [|discriminate E]. cbn [bind] in E. destruct (py_xor x d) as [y|] eqn:Ey; [|discriminate E]. apply ok_inj in E. injection E as <- <-.
      destruct (String.eqb_spec v "builder") as [->|N]; [|rewrite setv_other; [exact B|congruence]]. unfold lookup in Ex. rewrite B in Ex. injection Ex as <-. discriminate Ey.
    - destruct (the_builder e); [|discriminate E]. cbn [bind] in E. destruct (at_pos e off); [|discriminate E]. cbn [bind] in E. destruct (lookup e v); [|discriminate E]. cbn [bind] in E.
      destruct (write_scalar w b a0 a1); [|discriminate E]. apply ok_inj in E. injection E as <- <-. exact B.
    - destruct (the_builder e); [|discriminate E]. cbn [bind] in E. destruct (lookup e v); [|discriminate E]. cbn [bind] in E. destruct (as_shift a0); [|discriminate E]. cbn [bind] in E.
      destruct (write_bool b byteoff bitoff a1); [|discriminate E]. apply ok_inj in E. injection E as <- <-. exact B.
    - destruct (the_builder e); [|discriminate E]. cbn [bind] in E. destruct (at_pos e off); [|discriminate E]. cbn [bind] in E. destruct (lookup e v); [|discriminate E]. cbn [bind] in E.
      destruct (as_bytes a1); [|discriminate E]. cbn [bind] in E. destruct (if nul then alloc_text b a0 a2 else alloc_data b a0 a2) as [[b1 ?]|]; [|discriminate E]. apply ok_inj in E. injection E as <- <-. exact B.
    - destruct (the_builder e); [|discriminate E]. cbn [bind] in E. destruct (at_pos e off); [|discriminate E]. cbn [bind] in E. destruct (lookup e v); [|discriminate E]. cbn [bind] in E.
      destruct (copy_struct_arg fuel b a0 a1); [|discriminate E]. apply ok_inj in E. injection E as <- <-. exact B.
    - destruct (the_builder e); [|discriminate E]. cbn [bind] in E. destruct (at_pos e off); [|discriminate E]. cbn [bind] in E. destruct (lookup e v); [|discriminate E]. cbn [bind] in E.
      destruct (copy_from_list fuel t b a0 a1); [|discriminate E]. apply ok_inj in E. injection E as <- <-. exact B.
    - discriminate E.
  Qed.
End spare.

Lemma curtag_spared v : spared (curtag v).
Proof. apply under_spared. unfold curtag. rewrite lit_app. apply in_or_app. right. vm_compute. tauto. Qed.
Lemma under_varname v n : v <> "" -> spared (varname v n).
Proof. intros N. apply under_spared. rewrite (fine_var v n N), lit_app. apply in_or_app. right. now left. Qed.

Section new.
  Context (w : world) (fl : Z -> str) (nm : string -> string -> names).
  Notation fuel := (w_fuel w).

  Lemma flat_spares {A} (g : A -> list stmt) l : (forall x, In x l -> spares_all (g x)) -> spares_all (flat_map g l).
  Proof. induction l as [|x l IH]; intros H; [exact Logic.I|]. cbn [flat_map]. apply spares_app. split; [apply H; now left|]. apply IH. intros y Hy. apply H. now right. Qed.
  Lemma field_spares f : forall ds union b prefix, described w fl nm b prefix f -> prefix = "" \/ fine prefix -> spares_all (emit_field ds union prefix f).
  Proof.
    induction f as [n o dc t off ex d|n o dc nl u fs IH] using field_ind'; intros ds union b prefix H P.
    - assert (B : spares_all (emit_body ds prefix (FSlot n o dc t off ex d))).
      { cbn [emit_body]. destruct t; cbn [emit_slot]; try destruct ex; cbn; tauto. }
      rewrite emit_field_eq. destruct (f_disc _); [|exact B]. destruct union as [[uv uo]|]; cbn; try tauto. split; [|exact Logic.I]. split; [apply curtag_spared|]. split; [exact Logic.I|exact B].
    - pose proof (described_all _ _ _ _ _ _ _ _ _ _ _ H) as Ha. pose proof (fine_varname prefix n P (described_fine _ _ _ _ _ _ H)) as Fv.
      assert (B : spares_all (emit_body ds prefix (FGroup n o dc nl u fs))).
      { cbn [emit_body f_name]. set (v := varname prefix n) in *.
        assert (C : spares_all (emit_fields ds (uctx v u) v fs)).
        { unfold emit_fields. apply flat_spares. intros g Ig. rewrite Forall_forall in IH. assert (Ig' := Ig). apply filter_In in Ig'. eapply IH; [apply Ig'|exact (Ha g Ig)|now right]. }
        destruct nl.
        - destruct (filter visible fs) as [|? [|value ?]]; [cbn; tauto|cbn; tauto|]. split; [|exact C]. cbn [spares]. split; apply under_spared; rewrite lit_app; apply in_or_app; right; now left.
        - split; [|exact C]. cbn [spares]. apply Forall_map, Forall_forall. intros g Ig. apply under_varname, fine_ne, Fv. }
      rewrite emit_field_eq. destruct (f_disc _); [|exact B]. destruct union as [[uv uo]|]; cbn; try tauto. split; [|exact Logic.I]. split; [apply curtag_spared|]. split; [exact Logic.I|exact B].
  Qed.
  Lemma node_spares sn : node_described w fl nm sn ->
    spares_all (map (fun u => SNone (curtag u)) (all_unions sn) ++ emit_fields (sn_ds sn) (sn_union sn) "" (sn_fields sn)).
  Proof.
    intros H. apply spares_app. split.
    - generalize (all_unions sn). induction l as [|u l IH]; [exact Logic.I|]. split; [apply curtag_spared|exact IH].
    - unfold emit_fields. apply flat_spares. intros g Ig. apply filter_In in Ig. eapply field_spares; [apply (nd_fields _ _ _ sn H g (proj1 Ig) (proj2 Ig))|now left].
  Qed.

  (** ** the body of __new *)
  Notation names sn := (map f_name (filter visible (sn_fields sn))).
  Definition new_body sn ast := new_head ((sn_ds sn + sn_ps sn) * 8) ++ ast ++ new_tail.
  Definition new_stmts sn := map (fun u => SNone (curtag u)) (all_unions sn) ++ emit_fields (sn_ds sn) (sn_union sn) "" (sn_fields sn).
  Lemma new_run sn ast dp xs s : node_described w fl nm sn -> corr w ast (fun k => new_text_body fl nm k sn) (new_stmts sn) (names sn) ->
    match set_vars (fun _ => None) (map lit (names sn)) (map XV xs) with
    | None => Err TypeError
    | Some e => finish (run_block (rt w dp) (map lit (names sn) ++ flat_map assigned (new_body sn ast)) (new_body sn ast) e s)
    end = (do buf <- run_new fuel sn xs; Ok (XV (PBytes buf), mkst buf (s_new s))).
  Proof.
    intros H C. unfold run_new. rewrite (node_gen w fl nm sn H). cbn [bind].
    assert (I0 : inv (fun _ => None) (fun _ : str => @None xv)) by (intros v; reflexivity).
    pose proof (inv_set_all (names sn) xs _ _ I0) as X. destruct (set_all _ (names sn) xs) as [e|]; [|rewrite X; reflexivity]. destruct X as (fe & -> & I).
    set (L := map lit (names sn) ++ flat_map assigned (new_body sn ast)).
    assert (Ea : flat_map assigned (new_body sn ast) = lit "builder" :: lit "pos" :: flat_map assigned ast ++ []).
    { unfold new_body. rewrite !flat_map_app. reflexivity. }
    rewrite app_nil_r in Ea.
    assert (Lo : lower L).
    { unfold L. rewrite Ea. apply lower_app.
      - apply Forall_map, Forall_map, Forall_forall. intros f If. left. pose proof (node_ready w fl nm sn None H) as Rd. unfold ready in Rd. rewrite Forall_forall in Rd. apply (Rd f If).
      - apply Forall_cons; [left; reflexivity|]. apply Forall_cons; [left; reflexivity|]. apply C. }
    assert (Lb : In (lit "builder") L) by (unfold L; rewrite Ea; apply in_or_app; right; now left).
    assert (Lp : In (lit "pos") L) by (unfold L; rewrite Ea; apply in_or_app; right; right; now left).
    assert (Li : incl (flat_map assigned ast) L) by (unfold L; rewrite Ea; intros x Hx; apply in_or_app; right; right; now right).
    assert (Ln : forall v, In v (names sn) -> In (lit v) L) by (intros v Hv; unfold L; apply in_or_app; left; now apply in_map).
    clearbody L. unfold new_body, new_head. cbn [app]. unfold set. rewrite rb_set, ev_app.
    rewrite (ev_fun w dp L fe "_SegmentBuilder") by (first [cbn; tauto|apply lower_not; [exact Lo|reflexivity|discriminate]]).
    cbn [bind ev_all]. rewrite rt_call_fun. change (call_fun (lit "_SegmentBuilder") [] s) with (@Ok (xv * st) (XV PBuilder, mkst [] (s_new s))). cbn [bind].
    assert (I1 := inv_set e fe "builder" PBuilder I). rewrite rb_set. unfold meth.
    rewrite (ev_builder_call w dp L _ _ I1 (lit "allocate") _ _ Lb) by reflexivity. unfold the_builder. rewrite setv_same. cbn [bind ev_all]. rewrite ev_num. cbn [bind].
    change (call_builder w (lit "allocate") [XV (PInt ((sn_ds sn + sn_ps sn) * 8))] (mkst [] (s_new s))) with
      (let (buf, pos) := allocate [] ((sn_ds sn + sn_ps sn) * 8) in @Ok (xv * st) (XV (PInt pos), mkst buf (s_new s))).
    destruct (allocate [] ((sn_ds sn + sn_ps sn) * 8)) as [buf pos]. cbn [bind].
    assert (I2 := inv_set _ _ "pos" (PInt pos) I1). rewrite rb_app.
    pose proof (c_run _ _ _ _ _ C dp L _ _ (mkst buf (s_new s)) Lo Li Lb Lp Ln I2) as Y. cbn [s_buf s_new] in Y. unfold simulated in Y. fold (sn_union sn). fold (new_stmts sn).
    destruct (exec fuel (new_stmts sn) _) as [[e1 b1]|] eqn:Ex; [|rewrite Y; reflexivity]. destruct Y as (fe1 & -> & I3). cbn [bind].
    assert (B : e1 "builder" = Some PBuilder).
    { eapply exec_spares; [apply Forall_forall; intros q _; apply stmt_spares|exact Ex|apply node_spares, H|]. reflexivity. }
    unfold new_tail. rewrite rb_return. unfold meth. rewrite (ev_builder_call w dp L _ _ I3 (lit "as_string") _ _ Lb) by reflexivity. unfold the_builder. rewrite B. reflexivity.
  Qed.
End new.
