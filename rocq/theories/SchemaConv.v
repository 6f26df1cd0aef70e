(** The converse of SchemaFacts.v: when the accesses of SchemaMsg.v give a
    class, the schema that SchemaSpec.v sees in the message has a layout, and
    the class is that layout. *)
From Verif Require Import Base BaseFacts Spec Ptr Segment Builder Struct List Query StructFacts ListFacts ReadFacts Case CaseFacts Loader Enum
  CopyList ArgSpec Ctor SchemaPy SchemaMsg SchemaSpec SchemaFacts.
From Coq Require Import String.
From Coq Require Import Lists.List.
Local Notation length := Datatypes.length.
Local Open Scope string_scope.
Local Open Scope list_scope.
Local Open Scope Z_scope.

Lemma same_name_eq b s : same_name b (lit s) = true -> b = bstr s.
Proof.
  unfold same_name, bstr. rewrite str_eqb_spec. unfold lit. intros <-. rewrite map_map.
  induction b as [|x b IH]; [reflexivity|]. cbn [map]. now rewrite Zb_bZ, <- IH.
Qed.

Lemma tag_back d off : v_prim d off Fh = 1 -> v_prim d off FH = 1.
Proof.
  unfold v_prim. destruct (blen d <=? off); [trivial|]. unfold fdec. cbn [fsigned fsize]. unfold to_signed.
  set (x := le_dec (sub d off 2)). assert (0 <= x < 2 ^ 16).
  { unfold x. pose proof (le_dec_range (sub d off 2)) as H.
    assert (L : blen (sub d off 2) <= 2) by (unfold sub, blen; rewrite firstn_length; lia).
    assert (256 ^ blen (sub d off 2) <= 256 ^ 2) by (apply Z.pow_le_mono_r; lia). lia. }
  destruct (x <? 2 ^ (8 * 2 - 1)); lia.
Qed.

Lemma attr_group_conv c o d vs n nm od k ut nl u fs s : obj_den o d vs ->
  find (named n) (sn_fields c) = Some (FGroup nm od (Some k) nl u fs) -> sn_utag c = Some ut -> 0 <= ut ->
  attr_group c o n = Ok s -> v_prim d (ut * 2) Fh = k.
Proof.
  intros O F U P E. unfold attr_group in E. rewrite F in E. unfold get_group, ensure_union in E. rewrite U in E. cbn [f_disc] in E.
  unfold o_ensure_union, o_which in E. rewrite (o_read_primitive_spec o d vs (ut * 2) Fh O) in E by (cbn [fsize]; lia).
  cbn [bind] in E. destruct (Z.eqb_spec (v_prim d (ut * 2) Fh) k); [assumption|]. discriminate.
Qed.

Section request.
  Variable R : yrequest.
  Hypothesis ND : NoDup (map fst R).
  Variable nodes : list (Z * obj).
  Hypothesis NO : Forall2 node_of R nodes.

  Lemma all_conv id x : allnodes nodes id = Ok x -> exists e d vs, In (id, e) R /\ obj_den x d vs /\ is_node (id, e) d vs.
  Proof.
    intros A. destruct (in_dec Z.eq_dec id (map fst R)) as [J|J].
    - apply in_map_iff in J as ((id' & e) & Eid & J). cbn [fst] in Eid. subst id'.
      destruct (all_ok R ND nodes NO id e J) as (y & d & vs & B & D & I). rewrite A in B. apply ok_inj in B. subst y. eauto 6.
    - unfold allnodes in A. rewrite (get_none R nodes id NO J) in A. discriminate.
  Qed.
  (** only the node of a struct has the group *)
  Lemma struct_conv id x s : allnodes nodes id = Ok x -> attr_group c_Node x "struct" = Ok s -> exists N, In (id, Some N) R.
  Proof.
    intros A G. destruct (all_conv id x A) as (e & d & vs & J & D & _ & I). destruct e as [N|]; [eauto|]. cbn [snd] in I.
    exfalso. apply I. apply tag_back. change 12 with (6 * 2).
    eapply (attr_group_conv c_Node x d vs "struct"); [exact D|reflexivity|reflexivity|lia|exact G].
  Qed.
  Lemma fields_conv id x os : allnodes nodes id = Ok x -> struct_fields x = Ok os -> exists N, In (id, Some N) R.
  Proof.
    intros A E. unfold struct_fields in E. destruct (which x (sn_utag c_Node)) as [w|]; [|discriminate]. cbn [bind] in E.
    destruct (py_assert (w =? 1)) as [|]; [|discriminate]. cbn [bind] in E.
    destruct (attr_group c_Node x "struct") as [s|] eqn:G; [|discriminate]. exact (struct_conv id x s A G).
  Qed.

  Lemma item_conv t : forall fuel o d vs i, obj_den o d vs -> is_type t (VStruct d vs) -> item_type fuel nodes o = Ok i -> item_lay R t i.
  Proof.
    induction t as [| |f| | | | |t IH|id|id|id|]; intros [|fuel] o d vs i D I E; try discriminate; pose proof I as I';
      apply type_shape in I' as (d0 & vs0 & E0 & T); injection E0 as <- <-;
      pose proof (type_which _ o d vs D T) as W; pose proof (tag_of_type _ o d vs D T) as Th; cbn [item_type] in E; rewrite W in E;
      cbn [item_lay]; cbn [bind] in E; try (apply ok_inj in E; symmetry; exact E); try discriminate E.
    - rewrite !tag_not in E by lia. rewrite tag_range, tag_fmt in E. apply ok_inj in E. now symmetry.
    - cbn [ytag Z.eqb Pos.eqb Z.leb Z.compare Pos.compare Pos.compare_cont andb] in E.
      destruct I as (d1 & vs1 & E1 & _ & I). injection E1 as <- <-.
      destruct (list_elem o d vs t D Th I) as (e & d' & vs' & G & El & DE & IE).
      rewrite G in E. cbn [bind] in E. rewrite El in E. cbn [bind] in E.
      destruct (item_type fuel nodes e) as [j|] eqn:X; [|discriminate]. cbn [bind] in E. apply ok_inj in E. subst i.
      exists j. split; [reflexivity|]. exact (IH fuel e d' vs' j DE IE X).
    - cbn [ytag Z.eqb Pos.eqb Z.leb Z.compare Pos.compare Pos.compare_cont andb] in E.
      destruct I as (d1 & vs1 & E1 & _ & I). injection E1 as <- <-.
      rewrite (attr_group_ok c_Type o d vs D "enum" "enum" 15 (Some 15) false None (sn_fields c_Type_enum) eq_refl) in E
        by (cbn; split; [lia|exact Th]). cbn [bind] in E.
      rewrite (int_ok c_Type_enum o d vs D "typeId" "typeId" 0 None FQ 1 false eq_refl Logic.I) in E by lia. cbn [bind] in E.
      change (1 * fsize FQ) with 8 in E. rewrite I in E.
      destruct (allnodes nodes id) as [x|] eqn:A; [|discriminate]. cbn [bind] in E. apply ok_inj in E. subst i.
      split; [reflexivity|]. destruct (all_conv id x A) as (e & _ & _ & J & _). apply in_map_iff. exists (id, e). auto.
    - cbn [ytag Z.eqb Pos.eqb Z.leb Z.compare Pos.compare Pos.compare_cont andb] in E.
      destruct I as (d1 & vs1 & E1 & _ & I). injection E1 as <- <-.
      rewrite (attr_group_ok c_Type o d vs D "struct" "struct" 16 (Some 16) false None (sn_fields c_Type_struct) eq_refl) in E
        by (cbn; split; [lia|exact Th]). cbn [bind] in E.
      rewrite (int_ok c_Type_struct o d vs D "typeId" "typeId" 0 None FQ 1 false eq_refl Logic.I) in E by lia. cbn [bind] in E.
      change (1 * fsize FQ) with 8 in E. rewrite I in E.
      destruct (allnodes nodes id) as [x|] eqn:A; [|discriminate]. cbn [bind] in E.
      destruct (attr_group c_Node x "struct") as [s|] eqn:G; [|discriminate]. cbn [bind] in E.
      destruct (struct_conv id x s A G) as (N & J). exists N. split; [exact J|].
      destruct (struct_ok R ND nodes NO id N J) as (x' & s' & A' & G' & _ & DS & PS & _).
      rewrite A in A'. apply ok_inj in A'. subst x'. rewrite G in G'. apply ok_inj in G'. subst s'.
      rewrite DS in E. cbn [bind] in E. rewrite PS in E. cbn [bind] in E. apply ok_inj in E. now symmetry.
  Qed.
  Lemma slot_conv t fuel o d vs ft : obj_den o d vs -> is_type t (VStruct d vs) -> slot_type fuel nodes o = Ok ft -> type_lay R t ft.
  Proof.
    intros D I E. destruct t as [| |f| | | | |t|id|id|id|]; pose proof I as I';
      apply type_shape in I' as (d0 & vs0 & E0 & T); injection E0 as <- <-;
      pose proof (type_which _ o d vs D T) as W; pose proof (tag_of_type _ o d vs D T) as Th; unfold slot_type in E; rewrite W in E;
      cbn [type_lay]; cbn [bind] in E; try (apply ok_inj in E; symmetry; exact E); try discriminate E.
    - rewrite !tag_not in E by lia. rewrite tag_range, tag_fmt in E. apply ok_inj in E. now symmetry.
    - cbn [ytag Z.eqb Pos.eqb Z.leb Z.compare Pos.compare Pos.compare_cont andb] in E.
      destruct I as (d1 & vs1 & E1 & _ & I). injection E1 as <- <-.
      destruct (list_elem o d vs t D Th I) as (e & d' & vs' & G & El & DE & IE).
      rewrite G in E. cbn [bind] in E. rewrite El in E. cbn [bind] in E.
      destruct (item_type fuel nodes e) as [j|] eqn:X; [|discriminate]. cbn [bind] in E. apply ok_inj in E. subst ft.
      exists j. split; [reflexivity|]. exact (item_conv t fuel e d' vs' j DE IE X).
  Qed.

  Section fields.
    Variables (kwlist : list str) (conv : Z -> bytes -> bool).
    Notation pyname := (name_in kwlist conv).
    Notation read_fields := (read_fields nodes kwlist conv).

    Lemma name_conv n b s : py_name kwlist conv n b = Ok s -> s = pyname n b.
    Proof. unfold py_name. destruct (forallb _ b); [|discriminate]. intros E. apply ok_inj in E. now symmetry. Qed.

    Lemma nullable_conv id N fs : fields_lay pyname R id (yn_fields N) fs ->
      check_nullable (map y_name (yn_fields N)) fs = Ok tt -> nullable_shape N.
    Proof.
      intros L E. unfold nullable_shape. destruct (yn_fields N) as [|F [|G [|H r]]]; try discriminate E.
      inversion L as [|n0 F0 Fs0 f fs0 L1 L2]; subst. inversion L2 as [|n1 F1 Fs1 g fs1 L3 L4]; subst. inversion L4; subst.
      cbn [map check_nullable] in E. destruct (same_name (y_name F) s_isNull) eqn:A; [|discriminate].
      destruct (same_name (y_name G) s_value) eqn:B; [|discriminate]. cbn [negb orb] in E.
      exists F, G. split; [reflexivity|]. split; [exact (same_name_eq _ _ A)|]. split; [exact (same_name_eq _ _ B)|].
      inversion L3 as [n2 F2 off2 t2 x2 ex2 ft K2 TL EX| n2 F2 id2 N2 fs2 K2]; subst; rewrite K2; [|exact Logic.I].
      cbn [is_pointer_slot] in E. destruct t2; cbn [type_lay] in TL; try (subst ft; cbn in E; discriminate E); try reflexivity.
      destruct TL as (j & -> & _). discriminate E.
    Qed.

    Lemma read_conv fuel :
      (forall n F o f, is_field_obj F o -> read_field kwlist conv fuel nodes n o = Ok f -> field_lay pyname R n F f).
    Proof.
      induction fuel as [|fuel IH]; [discriminate|].
      intros n F o f FO E. pose proof (name_ok F o FO) as Nm. pose proof (order_ok F o FO) as Or.
      destruct (disc_ok F o FO) as (dv & Dv & Dd). destruct FO as (d & vs & D & _ & _ & _ & An & KD).
      cbn [read_field] in E. rewrite Nm in E. cbn [bind] in E.
      destruct (py_name kwlist conv n (y_name F)) as [py|] eqn:Py; [|discriminate]. apply name_conv in Py. subst py. cbn [bind] in E.
      rewrite Or in E. cbn [bind] in E. rewrite Dv in E. cbn [bind] in E.
      change (sn_utag c_Field) with (Some 4) in E. rewrite (which_ok o d vs D 4) in E by lia. change (4 * 2) with 8 in E. cbn [bind] in E.
      destruct (y_kind F) as [off t x ex|id] eqn:K.
      - destruct KD as (W & Off & Ex & Ty & Df).
        assert (Th : v_prim d 8 Fh = 0) by (apply small_tag; [lia|exact W|lia]). rewrite Th in E. cbn [Z.eqb] in E.
        assert (G : attr_group c_Field o "slot" = Ok o).
        { eapply (attr_group_ok c_Field o d vs D); [reflexivity|]. cbn. split; [lia|exact Th]. }
        rewrite G in E. cbn [bind] in E.
        pose proof (type_shape _ _ Ty) as (dt & vt & Vt & _). pose proof Df as (dd & vd & Vd & _). rewrite Vt in Ty. rewrite Vd in Df.
        destruct (obj_ok c_Field_slot o d vs D "type" "type" 1 None 2 false dt vt eq_refl Logic.I ltac:(lia) Vt) as (to & To & Dt).
        destruct (obj_ok c_Field_slot o d vs D "defaultValue" "defaultValue" 2 None 3 false dd vd eq_refl Logic.I ltac:(lia) Vd) as (vo & Vo & Dvo).
        rewrite To in E. cbn [bind] in E. destruct (slot_type fuel nodes to) as [ft|] eqn:S; [|discriminate]. cbn [bind] in E.
        apply (slot_conv t fuel to dt vt ft Dt Ty) in S.
        rewrite (bool_ok c_Field_slot o d vs D "hadExplicitDefault" "hadExplicitDefault" 3 None 128 false eq_refl Logic.I) in E by lia.
        change (128 / 8) with 16 in E. change (128 mod 8) with 0 in E. rewrite Ex in E. cbn [bind] in E.
        assert (C : ex = true -> can_default t).
        { intros ->. destruct t; cbn [type_lay] in S; try (exact Logic.I); try (subst ft; cbn in E; discriminate E).
          - destruct S as (j & -> & _). cbn in E. discriminate E.
          - contradiction. }
        rewrite (int_ok c_Field_slot o d vs D "offset" "offset" 0 None FI 1 false eq_refl Logic.I) in E by lia. change (1 * fsize FI) with 4 in E.
        rewrite Off in E. destruct (ex && _); [discriminate E|]. cbn [bind] in E. rewrite Vo in E. cbn [bind] in E.
        rewrite (default_ok R t x vo dd vd ft Dvo Df S) in E. cbn [bind] in E. rewrite Dd in E. apply ok_inj in E. subst f.
        exact (lay_slot pyname R n F off t x ex ft K S C).
      - destruct KD as (W & Tid).
        assert (Th : v_prim d 8 Fh = 1) by (apply small_tag; [lia|exact W|lia]). rewrite Th in E. cbn [Z.eqb Pos.eqb] in E.
        assert (G : attr_group c_Field o "group" = Ok o).
        { eapply (attr_group_ok c_Field o d vs D); [reflexivity|]. cbn. split; [lia|exact Th]. }
        rewrite G in E. cbn [bind] in E.
        rewrite (int_ok c_Field_group o d vs D "typeId" "typeId" 0 None FQ 2 false eq_refl Logic.I) in E by lia.
        change (2 * fsize FQ) with 16 in E. rewrite Tid in E. cbn [bind] in E.
        destruct (allnodes nodes id) as [x|] eqn:A; [|discriminate]. cbn [bind] in E.
        destruct (struct_fields x) as [fo|] eqn:SF; [|discriminate]. cbn [bind] in E.
        destruct (fields_conv id x fo A SF) as (N & J).
        destruct (struct_ok R ND nodes NO id N J) as (x' & s & A' & Gs & U & _ & _ & os & SF' & FOs).
        rewrite A in A'. apply ok_inj in A'. subst x'. rewrite SF in SF'. apply ok_inj in SF'. subst fo.
        match type of E with context [@bind (list field) _ (?h os) _] => change (h os) with (read_fields fuel id os) in E end.
        destruct (read_fields fuel id os) as [fs|] eqn:RF; [|discriminate]. cbn [bind] in E.
        assert (L : fields_lay pyname R id (yn_fields N) fs).
        { clear -IH FOs RF. revert fs RF. induction FOs as [|F o Fs os H FOs IH2]; intros fs E.
          - apply ok_inj in E. subst fs. constructor.
          - change (read_fields fuel id (o :: os))
              with (do f <- read_field kwlist conv fuel nodes id o; do r <- read_fields fuel id os; Ok (f :: r)) in E.
            destruct (read_field kwlist conv fuel nodes id o) as [f|] eqn:X; [|discriminate]. cbn [bind] in E.
            destruct (read_fields fuel id os) as [r|]; [|discriminate]. cbn [bind] in E. apply ok_inj in E. subst fs.
            constructor; [exact (IH id F o f H X)|now apply IH2]. }
        rewrite Gs in E. cbn [bind] in E. rewrite U in E. cbn [bind] in E. rewrite (nullable_ok F o d vs D An) in E. cbn [bind] in E.
        rewrite (names_ok _ _ FOs) in E. cbn [bind] in E.
        assert (Q : (marked F = true -> nullable_shape N) /\ f = FGroup (pyname n (y_name F)) (y_order F) (y_disc F) (marked F) (union_lay N) fs).
        { destruct (marked F).
          - destruct (check_nullable (map y_name (yn_fields N)) fs) as [[]|] eqn:CN; [|discriminate]. cbn [bind] in E. rewrite Dd in E.
            apply ok_inj in E. split; [intros _; exact (nullable_conv id N fs L CN)|now symmetry].
          - cbn [bind] in E. rewrite Dd in E. apply ok_inj in E. split; [discriminate|now symmetry]. }
        destruct Q as (Q & ->). exact (lay_group pyname R n F id N fs K J L Q).
    Qed.

    Lemma class_conv fuel id sn : read_struct kwlist conv fuel nodes id = Ok sn -> class_lay pyname R id sn.
    Proof.
      unfold read_struct. intros E. destruct (allnodes nodes id) as [x|] eqn:A; [|discriminate]. cbn [bind] in E.
      destruct (struct_fields x) as [fo|] eqn:SF; [|discriminate]. cbn [bind] in E.
      destruct (fields_conv id x fo A SF) as (N & J).
      destruct (struct_ok R ND nodes NO id N J) as (x' & s & A' & Gs & U & DS & PS & os & SF' & FOs).
      rewrite A in A'. apply ok_inj in A'. subst x'. rewrite SF in SF'. apply ok_inj in SF'. subst fo.
      match type of E with context [@bind (list field) _ (?h os) _] => change (h os) with (read_fields fuel id os) in E end.
      destruct (read_fields fuel id os) as [fs|] eqn:RF; [|discriminate]. cbn [bind] in E.
      rewrite Gs in E. cbn [bind] in E. rewrite U in E. cbn [bind] in E. rewrite DS in E. cbn [bind] in E. rewrite PS in E. cbn [bind] in E.
      apply ok_inj in E. subst sn. exists N, fs. split; [exact J|]. split; [|reflexivity].
      clear -FOs RF ND NO. revert fs RF. induction FOs as [|F o Fs os H FOs IH2]; intros fs E.
      - apply ok_inj in E. subst fs. constructor.
      - change (read_fields fuel id (o :: os))
          with (do f <- read_field kwlist conv fuel nodes id o; do r <- read_fields fuel id os; Ok (f :: r)) in E.
        destruct (read_field kwlist conv fuel nodes id o) as [f|] eqn:X; [|discriminate]. cbn [bind] in E.
        destruct (read_fields fuel id os) as [r|]; [|discriminate]. cbn [bind] in E. apply ok_inj in E. subst fs.
        constructor; [exact (read_conv fuel id F o f H X)|now apply IH2].
    Qed.
  End fields.
End request.
