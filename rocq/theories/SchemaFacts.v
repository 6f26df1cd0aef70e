(** How the accesses of SchemaMsg.v read a message, and the proof that they
    find the schema that SchemaSpec.v sees in it. *)
From Verif Require Const.
From Verif Require ConstFacts.
From Verif Require Import Base BaseFacts Spec Ptr Segment Builder Struct List Query StructFacts ListFacts ReadFacts Case Loader Enum
  CopyList ArgSpec Ctor SchemaPy SchemaMsg SchemaSpec.
From Coq Require Import String.
From Coq Require Import Lists.List.
Local Notation length := Datatypes.length.
Local Open Scope string_scope.
Local Open Scope list_scope.
Local Open Scope Z_scope.

(** ** Attributes *)

Lemma small_tag d off t : 0 <= off -> v_prim d off FH = t -> t < 2 ^ 15 -> v_prim d off Fh = t.
Proof.
  unfold v_prim. intros H E L. destruct (blen d <=? off); [exact E|]. unfold fdec in *. cbn [fsigned fsize] in *.
  rewrite E. unfold to_signed. change (8 * 2 - 1) with 15. destruct (Z.ltb_spec t (2 ^ 15)); [reflexivity|lia].
Qed.

(** the tag of the union is [k] *)
Definition selected (c : struct_node) (d : bytes) (disc : option Z) : Prop :=
  match disc, sn_utag c with
  | None, _ => True
  | Some k, Some u => 0 <= u /\ v_prim d (u * 2) Fh = k
  | Some _, None => False
  end.

Section obj.
  Variables (c : struct_node) (o : obj) (d : bytes) (vs : list value).
  Hypothesis O : obj_den o d vs.

  Lemma ensure_ok f : selected c d (f_disc f) -> ensure_union o (sn_utag c) f = Ok tt.
  Proof.
    unfold selected, ensure_union. destruct (f_disc f) as [k|]; [|reflexivity]. destruct (sn_utag c) as [u|]; [|tauto].
    intros (U & E). unfold o_ensure_union, o_which. rewrite (o_read_primitive_spec o d vs (u * 2) Fh O) by (cbn [fsize]; lia).
    cbn [bind]. now rewrite E, Z.eqb_refl.
  Qed.
  Lemma which_ok u : 0 <= u -> which o (Some u) = Ok (v_prim d (u * 2) Fh).
  Proof. intros U. unfold which, o_which. apply (o_read_primitive_spec o d vs (u * 2) Fh O); cbn [fsize]; lia. Qed.

  Lemma attr_slot n nm od disc t off ex df :
    find (named n) (sn_fields c) = Some (FSlot nm od disc t off ex df) -> selected c d disc ->
    attr c o n = read_slot o t off df.
  Proof.
    intros F S. unfold attr. rewrite F. unfold get_slot. rewrite ensure_ok by exact S. reflexivity.
  Qed.
  Lemma attr_group_ok n nm od disc nl u fs :
    find (named n) (sn_fields c) = Some (FGroup nm od disc nl u fs) -> selected c d disc ->
    attr_group c o n = Ok o.
  Proof.
    intros F S. unfold attr_group. rewrite F. unfold get_group. rewrite ensure_ok by exact S. cbn [bind].
    exact (init_ok o d vs O).
  Qed.
  Lemma int_ok n nm od disc f off ex :
    find (named n) (sn_fields c) = Some (FSlot nm od disc (TPrim f) off ex 0) -> selected c d disc -> 0 <= off ->
    int_attr c o n = Ok (v_prim d (off * fsize f) f).
  Proof.
    intros F S P. unfold int_attr. rewrite (attr_slot _ _ _ _ _ _ _ _ F S). cbn [read_slot].
    pose proof (fsize_pos f). rewrite (o_read_primitive_spec o d vs (off * fsize f) f O) by (try apply Z.mod_mul; nia).
    reflexivity.
  Qed.
  Lemma int_xor_ok n nm od disc f off ex df :
    find (named n) (sn_fields c) = Some (FSlot nm od disc (TPrim f) off ex df) -> selected c d disc -> 0 <= off -> df <> 0 ->
    int_attr c o n = Ok (Z.lxor (v_prim d (off * fsize f) f) df).
  Proof.
    intros F S P N. unfold int_attr. rewrite (attr_slot _ _ _ _ _ _ _ _ F S). cbn [read_slot].
    pose proof (fsize_pos f). rewrite (o_read_primitive_spec o d vs (off * fsize f) f O) by (try apply Z.mod_mul; nia).
    cbn [bind]. apply Z.eqb_neq in N. now rewrite N.
  Qed.
  Lemma obj_ok n nm od disc off ex d' vs' :
    find (named n) (sn_fields c) = Some (FSlot nm od disc TStruct off ex 0) -> selected c d disc -> 0 <= off ->
    v_ptr vs off = VStruct d' vs' -> exists x, obj_attr c o n = Ok x /\ obj_den x d' vs'.
  Proof.
    intros F S P V. unfold obj_attr. rewrite (attr_slot _ _ _ _ _ _ _ _ F S). cbn [read_slot].
    pose proof (o_read_struct_spec o d vs off O P) as R. rewrite V in R. destruct R as (x & R & D & _).
    replace (off * 8) with (8 * off) by lia. rewrite R. cbn [bind]. eauto.
  Qed.
  Lemma text_ok n nm od disc off ex b :
    find (named n) (sn_fields c) = Some (FSlot nm od disc TText off ex 0) -> selected c d disc -> 0 <= off ->
    v_ptr vs off = text_value true b -> attr c o n = Ok (GBytes b).
  Proof.
    intros F S P V. rewrite (attr_slot _ _ _ _ _ _ _ _ F S). cbn [read_slot].
    replace (off * 8) with (8 * off) by lia.
    rewrite (o_read_data_spec o d vs off None (-1) (Ok (Some b)) O P); [reflexivity|].
    rewrite V. cbn [text_value vbytes]. pose proof (blen_nonneg b).
    change (2 =? 2) with true. cbv iota. replace (0 <=? blen b + 1 + -1) with true by (symmetry; lia). cbn [andb Z.leb Z.compare].
    replace (blen b + 1 + -1) with (blen b) by lia. do 3 f_equal.
    unfold sub, blen. rewrite Nat2Z.id. cbn [Z.to_nat skipn]. rewrite firstn_app, Nat.sub_diag, firstn_all. cbn [firstn]. apply app_nil_r.
  Qed.
  Lemma bool_ok n nm od disc off ex :
    find (named n) (sn_fields c) = Some (FSlot nm od disc TBool off ex 0) -> selected c d disc -> 0 <= off ->
    attr c o n = Ok (GBool (Z.testbit (v_prim d (off / 8) FB) (off mod 8))).
  Proof.
    intros F S P. rewrite (attr_slot _ _ _ _ _ _ _ _ F S). cbn [read_slot].
    rewrite (o_read_bit_spec o d vs (off / 8) _ O) by (apply Z.div_pos; lia). cbn [bind].
    rewrite land_pow2_testbit by (apply Z.mod_pos_bound; lia). reflexivity.
  Qed.

  Lemma list_null n nm od disc it off ex :
    find (named n) (sn_fields c) = Some (FSlot nm od disc (TList it) off ex 0) -> selected c d disc -> 0 <= off ->
    v_ptr vs off = VNull -> list_attr c o n = Ok None.
  Proof.
    intros F S P V. unfold list_attr. rewrite (attr_slot _ _ _ _ _ _ _ _ F S). cbn [read_slot].
    pose proof (o_read_list_spec o d vs off it O P) as R. rewrite V in R. replace (off * 8) with (8 * off) by lia. rewrite R. reflexivity.
  Qed.
  Lemma list_ok n nm od disc a b off ex ds ps items sl :
    find (named n) (sn_fields c) = Some (FSlot nm od disc (TList (ITStruct a b)) off ex 0) -> selected c d disc -> 0 <= off ->
    v_ptr vs off = VComp ds ps items sl ->
    exists os, list_attr c o n = Ok (Some os) /\ Forall2 (fun x i => obj_den x (fst i) (snd i)) os items.
  Proof.
    intros F S P V. unfold list_attr. rewrite (attr_slot _ _ _ _ _ _ _ _ F S). cbn [read_slot].
    pose proof (o_read_list_spec o d vs off (ITStruct a b) O P) as R. rewrite V in R. destruct R as (l & R & D & _ & T).
    replace (off * 8) with (8 * off) by lia. rewrite R. cbn [bind].
    destruct (items_value l _ (map (fun i => VIObj (fst i) (snd i)) items) D) as (xs & I & X).
    - unfold blen. rewrite map_length. reflexivity.
    - intros i y N. rewrite nth_error_map in N. destruct (nth_error items i) as [p|] eqn:E; [|discriminate]. injection N as <-.
      split; [|exact Logic.I]. rewrite T. cbn [v_item]. rewrite Nat2Z.id, E. now destruct p.
    - rewrite (iter_list l xs) by (try exact I; destruct I as (-> & _); unfold blen; lia). cbn [bind].
      eexists. split; [reflexivity|]. clear -X T. remember (map (fun i => VIObj (fst i) (snd i)) items) as ys eqn:Y.
      revert items Y. induction X as [|x y xs ys A X IH]; intros [|i items] Y; try discriminate; [constructor|].
      injection Y as -> ->. destruct x; cbn [item_den] in A; try contradiction. cbn [flat_map app]. constructor; [apply A|now apply IH].
  Qed.
End obj.

Lemma v_prim_at d a b f z : a = b -> v_prim d a f = z -> v_prim d b f = z.
Proof. congruence. Qed.

(** ** Nodes *)
Section request.
  Variable R : yrequest.
  Hypothesis ND : NoDup (map fst R).

  Definition node_of (e : Z * option ynode) (x : Z * obj) : Prop :=
    fst x = fst e /\ exists d vs, obj_den (snd x) d vs /\ is_node e d vs.

  Lemma ids_ok os items L : Forall2 (fun x (i : bytes * list value) => obj_den x (fst i) (snd i)) os items ->
    Forall2 (fun e i => is_node e (fst i) (snd i)) L items ->
    exists nodes, node_ids os = Ok nodes /\ Forall2 node_of L nodes.
  Proof.
    intros F. revert L. induction F as [|x i os items D F IH]; intros L G; inversion G as [|e i' L' items' N G']; subst.
    - exists []. split; [reflexivity|constructor].
    - destruct (IH L' G') as (nodes & E & W). destruct N as (Ni & N).
      exists ((fst e, x) :: nodes). cbn [node_ids].
      rewrite (int_ok c_Node x _ _ D "id" "id" 0 None FQ 0 false eq_refl Logic.I) by lia. cbn [bind].
      rewrite E. cbn [bind]. change (0 * fsize FQ) with 0. rewrite Ni. split; [reflexivity|]. constructor; [|exact W].
      split; [reflexivity|]. exists (fst i), (snd i). split; [exact D|]. split; assumption.
  Qed.

  Variable nodes : list (Z * obj).
  Hypothesis NO : Forall2 node_of R nodes.

  Lemma get_none L ns id : Forall2 node_of L ns -> ~ In id (map fst L) -> node_get ns id = None.
  Proof.
    induction 1 as [|e [i x] L ns W F IH]; [reflexivity|]. cbn [map In]. intros N. cbn [node_get].
    rewrite IH by tauto. destruct W as (W & _). cbn [fst] in W. destruct (Z.eqb_spec i id); [exfalso; apply N; left; congruence|reflexivity].
  Qed.
  Lemma get_some id e : In (id, e) R -> exists x, node_get nodes id = Some x /\ exists d vs, obj_den x d vs /\ is_node (id, e) d vs.
  Proof.
    revert ND NO. generalize nodes. clear nodes.
    induction R as [|e' L IH]; intros ns ND0 F J; [contradiction|]. inversion F as [|e2 [i x] L2 ns2 W F2]; subst.
    cbn [map] in ND0. apply NoDup_cons_iff in ND0 as (N1 & N2). cbn [node_get]. destruct J as [->|J].
    - rewrite (get_none L ns2 id F2 N1). destruct W as (W1 & W2). cbn [fst snd] in *. subst i. rewrite Z.eqb_refl. eauto.
    - destruct (IH _ N2 F2 J) as (y & Y & Q). rewrite Y. eauto.
  Qed.
  Lemma all_ok id e : In (id, e) R -> exists x d vs, allnodes nodes id = Ok x /\ obj_den x d vs /\ is_node (id, e) d vs.
  Proof. intros J. destruct (get_some id e J) as (x & E & d & vs & Q). unfold allnodes. rewrite E. eauto 6. Qed.

  (** a struct *)
  Lemma struct_ok id N : In (id, Some N) R -> exists x s,
    allnodes nodes id = Ok x /\ attr_group c_Node x "struct" = Ok s /\
    union_of s = Ok (union_lay N) /\
    int_attr c_Node_struct s "dataWordCount" = Ok (yn_ds N) /\
    int_attr c_Node_struct s "pointerCount" = Ok (yn_ps N) /\
    exists os, struct_fields x = Ok (Some os) /\ Forall2 (fun F o => exists d vs, obj_den o d vs /\ is_field F d vs) (yn_fields N) os.
  Proof.
    intros J. destruct (all_ok _ _ J) as (x & d & vs & A & D & _ & W & S1 & S2 & S3 & S4 & S5). cbn [snd] in *.
    assert (T : v_prim d 12 Fh = 1) by (apply small_tag; [lia|exact W|lia]).
    assert (G : attr_group c_Node x "struct" = Ok x).
    { eapply (attr_group_ok c_Node x d vs D); [reflexivity|]. cbn. split; [lia|exact T]. }
    exists x, x. split; [exact A|]. split; [exact G|]. split.
    { unfold union_of. rewrite (int_ok c_Node_struct x d vs D "discriminantCount" "discriminantCount" 4 None FH 15 false eq_refl Logic.I) by lia.
      cbn [bind]. change (15 * fsize FH) with 30. rewrite S3. unfold union_lay. destruct (0 <? yn_dcount N); [|reflexivity].
      rewrite (int_ok c_Node_struct x d vs D "discriminantOffset" "discriminantOffset" 5 None FI 8 false eq_refl Logic.I) by lia.
      cbn [bind]. change (8 * fsize FI) with 32. now rewrite S4. }
    split.
    { rewrite (int_ok c_Node_struct x d vs D "dataWordCount" "dataWordCount" 0 None FH 7 false eq_refl Logic.I) by lia. now rewrite <- S1. }
    split.
    { rewrite (int_ok c_Node_struct x d vs D "pointerCount" "pointerCount" 1 None FH 12 false eq_refl Logic.I) by lia. now rewrite <- S2. }
    destruct S5 as (ds & ps & items & sl & V & F).
    destruct (list_ok c_Node_struct x d vs D "fields" "fields" 6 None 3 4 3 false ds ps items sl eq_refl Logic.I ltac:(lia) V) as (os & E & G2).
    exists os. split.
    - unfold struct_fields. change (sn_utag c_Node) with (Some 6). rewrite (which_ok x d vs D 6) by lia. cbn [bind].
      change (6 * 2) with 12. rewrite T. cbn [Z.eqb Pos.eqb py_assert bind]. rewrite G. cbn [bind]. exact E.
    - clear -F G2. revert os G2. induction F as [|f i Fs items H F IH]; intros os G; inversion G; subst; constructor; eauto.
  Qed.

  (** ** Types *)
  Lemma ytag_bound t : 0 <= ytag t <= 18.
  Proof. destruct t as [| |f| | | | | | | | |]; cbn [ytag]; try lia. destruct f; lia. Qed.
  Lemma tag_of_type t o d vs : obj_den o d vs -> v_prim d 0 FH = ytag t -> v_prim d 0 Fh = ytag t.
  Proof. intros _ T. pose proof (ytag_bound t). apply small_tag; [lia|exact T|lia]. Qed.
  Lemma type_which t o d vs : obj_den o d vs -> v_prim d 0 FH = ytag t -> which o (sn_utag c_Type) = Ok (ytag t).
  Proof.
    intros D T. change (sn_utag c_Type) with (Some 0). rewrite (which_ok o d vs D 0) by lia. f_equal. exact (tag_of_type t o d vs D T).
  Qed.
  Lemma tag_fmt f : int_of_tag (ytag (YInt f)) = Some f.
  Proof. destruct f; reflexivity. Qed.
  Lemma tag_range f : (2 <=? ytag (YInt f)) && (ytag (YInt f) <=? 9) = true.
  Proof. destruct f; reflexivity. Qed.
  Lemma tag_not f n : (n = 0 \/ n = 1 \/ 10 <= n) -> (ytag (YInt f) =? n) = false.
  Proof. intros H. apply Z.eqb_neq. destruct f; cbn [ytag]; lia. Qed.

  Lemma list_elem o d vs t : obj_den o d vs -> v_prim d 0 Fh = 14 -> is_type t (v_ptr vs 0) ->
    exists e d' vs', attr_group c_Type o "list" = Ok o /\ obj_attr c_Type_list o "elementType" = Ok e /\ obj_den e d' vs' /\
      is_type t (VStruct d' vs').
  Proof.
    intros D T I. assert (V : exists d' vs', v_ptr vs 0 = VStruct d' vs') by (destruct t; destruct I as (d' & vs' & E & _); eauto).
    destruct V as (d' & vs' & V). rewrite V in I.
    destruct (obj_ok c_Type_list o d vs D "elementType" "elementType" 0 None 0 false d' vs' eq_refl Logic.I ltac:(lia) V) as (e & E & DE).
    exists e, d', vs'. split; [|auto]. eapply (attr_group_ok c_Type o d vs D); [reflexivity|]. cbn. split; [lia|exact T].
  Qed.

  Lemma type_shape t v : is_type t v -> exists d vs, v = VStruct d vs /\ v_prim d 0 FH = ytag t.
  Proof. destruct t; intros (d & vs & E & T & _); eauto. Qed.

  Lemma item_ok t : forall o d vs i, obj_den o d vs -> is_type t (VStruct d vs) -> item_lay R t i ->
    exists n0, forall fuel, (n0 <= fuel)%nat -> item_type fuel nodes o = Ok i.
  Proof.
    induction t as [| |f| | | | |t IH|id|id|id|]; intros o d vs i D I L; pose proof I as I';
      apply type_shape in I' as (d0 & vs0 & E0 & T); injection E0 as <- <-;
      pose proof (type_which _ o d vs D T) as W; pose proof (tag_of_type _ o d vs D T) as Th; cbn [item_lay] in L;
      try (exists 1%nat; intros [|fuel] Hf; [lia|]; cbn [item_type]; rewrite W; rewrite L; reflexivity).
    - exists 1%nat; intros [|fuel] Hf; [lia|]; cbn [item_type]. rewrite W. cbn [bind].
      rewrite !tag_not by lia. rewrite tag_range, tag_fmt. now rewrite L.
    - destruct L as (j & -> & L). destruct I as (d1 & vs1 & E1 & _ & I). injection E1 as <- <-.
      destruct (list_elem o d vs t D Th I) as (e & d' & vs' & G & E & DE & IE).
      destruct (IH e d' vs' j DE IE L) as (n0 & K). exists (S n0). intros [|fuel] Hf; [lia|]. cbn [item_type]. rewrite W.
      cbn [bind ytag Z.eqb Pos.eqb Z.leb Z.compare Pos.compare Pos.compare_cont andb]. rewrite G. cbn [bind]. rewrite E. cbn [bind].
      rewrite K by lia. reflexivity.
    - destruct L as (-> & J). apply in_map_iff in J as ((id' & e) & Eid & J). cbn [fst] in Eid. subst id'.
      destruct I as (d1 & vs1 & E1 & _ & I). injection E1 as <- <-. destruct (all_ok id e J) as (x & dx & vx & A & _).
      exists 1%nat. intros [|fuel] Hf; [lia|]. cbn [item_type]. rewrite W.
      cbn [bind ytag Z.eqb Pos.eqb Z.leb Z.compare Pos.compare Pos.compare_cont andb].
      rewrite (attr_group_ok c_Type o d vs D "enum" "enum" 15 (Some 15) false None (sn_fields c_Type_enum) eq_refl)
        by (cbn; split; [lia|exact Th]). cbn [bind].
      rewrite (int_ok c_Type_enum o d vs D "typeId" "typeId" 0 None FQ 1 false eq_refl Logic.I) by lia. cbn [bind].
      change (1 * fsize FQ) with 8. rewrite I, A. reflexivity.
    - destruct L as (N & J & ->). destruct I as (d1 & vs1 & E1 & _ & I). injection E1 as <- <-.
      destruct (struct_ok id N J) as (x & s & A & G & _ & DS & PS & _).
      exists 1%nat. intros [|fuel] Hf; [lia|]. cbn [item_type]. rewrite W.
      cbn [bind ytag Z.eqb Pos.eqb Z.leb Z.compare Pos.compare Pos.compare_cont andb].
      rewrite (attr_group_ok c_Type o d vs D "struct" "struct" 16 (Some 16) false None (sn_fields c_Type_struct) eq_refl)
        by (cbn; split; [lia|exact Th]). cbn [bind].
      rewrite (int_ok c_Type_struct o d vs D "typeId" "typeId" 0 None FQ 1 false eq_refl Logic.I) by lia. cbn [bind].
      change (1 * fsize FQ) with 8. rewrite I, A. cbn [bind]. rewrite G. cbn [bind]. rewrite DS. cbn [bind]. rewrite PS. reflexivity.
    - contradiction.
    - contradiction.
  Qed.

  Lemma slot_ok t o d vs ft : obj_den o d vs -> is_type t (VStruct d vs) -> type_lay R t ft ->
    exists n0, forall fuel, (n0 <= fuel)%nat -> slot_type fuel nodes o = Ok ft.
  Proof.
    intros D I L. destruct t as [| |f| | | | |t|id|id|id|]; pose proof I as I';
      apply type_shape in I' as (d0 & vs0 & E0 & T); injection E0 as <- <-;
      pose proof (type_which _ o d vs D T) as W; pose proof (tag_of_type _ o d vs D T) as Th; cbn [type_lay] in L;
      try (exists 0%nat; intros fuel _; unfold slot_type; rewrite W; rewrite L; reflexivity).
    - exists 0%nat. intros fuel _. unfold slot_type. rewrite W. cbn [bind].
      rewrite !tag_not by lia. rewrite tag_range, tag_fmt. now rewrite L.
    - destruct L as (j & -> & L). destruct I as (d1 & vs1 & E1 & _ & I). injection E1 as <- <-.
      destruct (list_elem o d vs t D Th I) as (e & d' & vs' & G & E & DE & IE).
      destruct (item_ok t e d' vs' j DE IE L) as (n0 & K). exists n0. intros fuel Hf. unfold slot_type. rewrite W.
      cbn [bind ytag Z.eqb Pos.eqb Z.leb Z.compare Pos.compare Pos.compare_cont andb]. rewrite G. cbn [bind]. rewrite E. cbn [bind].
      rewrite K by lia. reflexivity.
    - contradiction.
  Qed.

  (** ** Default values *)
  Lemma pyobj_at o d vs i f : obj_den o d vs -> v_prim d 0 Fh = Z.of_nat i ->
    nth_error Const.val_fields i = Some f -> (i < 19)%nat -> f_disc f = Some (Z.of_nat i) ->
    Const.as_pyobj o = match f with FSlot _ _ _ ft off _ df => read_slot o ft off df | _ => Err TypeError end.
  Proof.
    intros D T N L F. unfold Const.as_pyobj. rewrite (which_ok o d vs D 0) by lia. change (0 * 2) with 0. rewrite T. cbn [bind].
    assert (G : tuple_get Const.val_fields (Z.of_nat i) = Ok f).
    { unfold tuple_get. replace (Z.of_nat i <? 0) with false by (symmetry; lia).
      change (blen Const.val_fields) with 19. replace ((Z.of_nat i <? 0) || (19 <=? Z.of_nat i)) with false by (symmetry; lia).
      now rewrite Nat2Z.id, N. }
    rewrite G. unfold get_slot. destruct f as [nm od disc t off ex df|]; [|reflexivity].
    rewrite (ensure_ok (mksn 0 0 (Some 0) []) o d vs D); [reflexivity|]. cbn [f_disc] in *. subst disc. cbn. split; [lia|exact T].
  Qed.

  Lemma null_any o d vs k : obj_den o d vs -> 0 <= k -> v_ptr vs k = VNull -> read_slot o TAny k 0 = Ok GNone.
  Proof.
    intros D K V. cbn [read_slot]. unfold has_slot. destruct (o_read_fast_ptr_spec o d vs k D K) as (p & P & DP & _).
    replace (k * 8) with (8 * k) by lia. rewrite P. cbn [bind]. rewrite V in DP.
    assert (p = 0) as ->; [|reflexivity].
    destruct (Z.eq_dec (p_kind p) 2) as [E|E]; [|exact (den_kind0 _ _ _ _ DP E)].
    destruct (den_far_inv _ _ _ _ DP E) as (pos' & p' & _ & K' & N' & D'). pose proof (den_kind0 _ _ _ _ D' K') as Z0. cbn in Z0. congruence.
  Qed.

  Lemma default_ok t x o d vs ft : obj_den o d vs -> is_default t x (VStruct d vs) -> type_lay R t ft ->
    slot_default_of ft o = Ok x.
  Proof.
    intros D (d0 & vs0 & E0 & T & I) L. injection E0 as <- <-. unfold slot_default_of.
    pose proof (tag_of_type _ o d vs D T) as Th.
    assert (Q : forall off' f, 0 <= off' -> off' mod fsize f = 0 -> o_read_primitive o off' f = Ok (v_prim d off' f))
      by (intros off' f H1 H2; exact (o_read_primitive_spec _ d vs off' f D H1 H2)).
    destruct t as [| |f| | | | |t|id|id|id|]; cbn [type_lay] in L; cbn [ytag] in Th.
    - rewrite (pyobj_at o d vs 0 _ D Th eq_refl ltac:(lia) eq_refl). rewrite L. cbn [read_slot bind]. now rewrite I.
    - destruct I as (I & J). rewrite (pyobj_at o d vs 1 _ D Th eq_refl ltac:(lia) eq_refl). rewrite L. cbn [read_slot].
      rewrite (o_read_bit_spec _ d vs (16 / 8) (Z.shiftl 1 (16 mod 8)) D ltac:(lia)). cbn [bind].
      rewrite land_pow2_testbit by lia. change (16 / 8) with 2. change (16 mod 8) with 0. rewrite I.
      destruct J as [-> | ->]; reflexivity.
    - assert (E : Const.as_pyobj o = Ok (GInt x)).
      { destruct f; cbn [ytag] in Th; cbn [fsize] in I;
        match type of Th with _ = ?n => rewrite (pyobj_at o d vs (Z.to_nat n) _ D Th eq_refl ltac:(lia) eq_refl) end;
        cbn [read_slot]; rewrite Q by (cbn [fsize]; lia); cbn [bind fsize Z.eqb negb]; f_equal; f_equal; exact I. }
      rewrite E, L. reflexivity.
    - rewrite (pyobj_at o d vs 10 _ D Th eq_refl ltac:(lia) eq_refl). rewrite L. cbn [read_slot].
      rewrite Q by (cbn [fsize]; lia). cbn [bind]. change (float_zero _ 0) with true. cbn [negb bind]. f_equal. exact I.
    - rewrite (pyobj_at o d vs 11 _ D Th eq_refl ltac:(lia) eq_refl). rewrite L. cbn [read_slot].
      rewrite Q by (cbn [fsize]; lia). cbn [bind]. change (float_zero _ 0) with true. cbn [negb bind]. f_equal. exact I.
    - destruct I as (I & ->). rewrite (pyobj_at o d vs 12 _ D Th eq_refl ltac:(lia) eq_refl). rewrite L. cbn [read_slot]. change (0 * 8) with (8 * 0).
      rewrite (o_read_data_spec o d vs 0 None (-1) (Ok None) D ltac:(lia)) by (now rewrite I). reflexivity.
    - destruct I as (I & ->). rewrite (pyobj_at o d vs 13 _ D Th eq_refl ltac:(lia) eq_refl). rewrite L. cbn [read_slot]. change (0 * 8) with (8 * 0).
      rewrite (o_read_data_spec o d vs 0 None 0 (Ok None) D ltac:(lia)) by (now rewrite I). reflexivity.
    - destruct I as (I & ->). destruct L as (j & -> & _). rewrite (pyobj_at o d vs 14 _ D Th eq_refl ltac:(lia) eq_refl).
      rewrite (null_any o d vs 0 D ltac:(lia) I). reflexivity.
    - rewrite (pyobj_at o d vs 15 _ D Th eq_refl ltac:(lia) eq_refl). rewrite L. cbn [read_slot].
      rewrite Q by (cbn [fsize]; lia). cbn [bind]. change (float_zero _ 0) with true. cbn [negb bind]. f_equal. exact I.
    - destruct I as (I & ->). rewrite L. rewrite (pyobj_at o d vs 16 _ D Th eq_refl ltac:(lia) eq_refl).
      rewrite (null_any o d vs 0 D ltac:(lia) I). reflexivity.
    - contradiction.
    - destruct I as (I & ->). rewrite L. rewrite (pyobj_at o d vs 18 _ D Th eq_refl ltac:(lia) eq_refl).
      rewrite (null_any o d vs 0 D ltac:(lia) I). reflexivity.
  Qed.

  (** ** Fields *)
  Lemma has_id_ok l items os id : Forall2 (fun a (i : bytes * list value) => v_prim (fst i) 0 FQ = a) l items ->
    Forall2 (fun x (i : bytes * list value) => obj_den x (fst i) (snd i)) os items ->
    has_id os id = Ok (existsb (Z.eqb id) l).
  Proof.
    intros F. revert os. induction F as [|a i l items A F IH]; intros os G; inversion G as [|x i' os' items' D G']; subst; [reflexivity|].
    cbn [has_id existsb]. rewrite (int_ok c_Annotation x _ _ D "id" "id" 0 None FQ 0 false eq_refl Logic.I) by lia. cbn [bind].
    change (0 * fsize FQ) with 0. rewrite (Z.eqb_sym id).
    destruct (v_prim (fst i) 0 FQ =? id); [reflexivity|]. cbn [orb]. now apply IH.
  Qed.
  Lemma nullable_ok F o d vs : obj_den o d vs -> is_annotations (y_anns F) (v_ptr vs 1) -> is_nullable o = Ok (marked F).
  Proof.
    intros D A. unfold is_nullable, marked. destruct (y_anns F) as [l|].
    - destruct A as (ds & ps & items & sl & V & A).
      destruct (list_ok c_Field o d vs D "annotations" "annotations" 2 None 1 2 1 false ds ps items sl eq_refl Logic.I ltac:(lia) V) as (os & E & G).
      rewrite E. cbn [bind]. exact (has_id_ok _ _ _ _ A G).
    - rewrite (list_null c_Field o d vs D "annotations" "annotations" 2 None (ITStruct 1 2) 1 false eq_refl Logic.I ltac:(lia) A). reflexivity.
  Qed.

  Definition is_field_obj (F : yfield) (o : obj) : Prop := exists d vs, obj_den o d vs /\ is_field F d vs.
  Lemma name_ok F o : is_field_obj F o -> name_of c_Field o = Ok (y_name F).
  Proof.
    intros (d & vs & D & N & _). unfold name_of.
    rewrite (text_ok c_Field o d vs D "name" "name" 0 None 0 false _ eq_refl Logic.I ltac:(lia) N). reflexivity.
  Qed.
  Lemma names_ok Fs os : Forall2 is_field_obj Fs os -> names_of os = Ok (map y_name Fs).
  Proof.
    induction 1 as [|F o Fs os H G IH]; [reflexivity|]. cbn [names_of map]. rewrite (name_ok F o H). cbn [bind]. rewrite IH. reflexivity.
  Qed.
  Lemma disc_ok F o : is_field_obj F o -> exists dv, int_attr c_Field o "discriminantValue" = Ok dv /\ disc_of dv = y_disc F.
  Proof.
    intros (d & vs & D & _ & _ & V & _).
    exists (Z.lxor (v_prim d 2 FH) 65535). split.
    - exact (int_xor_ok c_Field o d vs D "discriminantValue" "discriminantValue" 3 None FH 1 true 65535 eq_refl Logic.I ltac:(lia) ltac:(lia)).
    - unfold disc_of. destruct (y_disc F) as [n|].
      + destruct V as (-> & N). apply Z.eqb_neq in N. now rewrite N.
      + rewrite V. reflexivity.
  Qed.
  Lemma order_ok F o : is_field_obj F o -> int_attr c_Field o "codeOrder" = Ok (y_order F).
  Proof.
    intros (d & vs & D & _ & V & _). rewrite (int_ok c_Field o d vs D "codeOrder" "codeOrder" 1 None FH 0 false eq_refl Logic.I) by lia.
    f_equal. exact V.
  Qed.

  Section fields.
    Variables (kwlist : list str) (conv : Z -> bytes -> bool) (pyname : Z -> bytes -> string).

    Definition named_ok (n : Z) (F : yfield) : Prop := py_name kwlist conv n (y_name F) = Ok (pyname n (y_name F)).
    Hypothesis NA : forall id N F, In (id, Some N) R -> In F (yn_fields N) -> named_ok id F.

    Definition read_fields (fuel : nat) (n : Z) : list obj -> res (list field) :=
      fix go l :=
      match l with
      | [] => Ok []
      | x :: r => do f <- read_field kwlist conv fuel nodes n x; do r <- go r; Ok (f :: r)
      end.

    Scheme lay1 := Induction for field_lay Sort Prop
      with lay2 := Induction for fields_lay Sort Prop.
    Combined Scheme lay_ind from lay1, lay2.

    Lemma nullable_fields id N fs : fields_lay pyname R id (yn_fields N) fs -> nullable_shape N ->
      check_nullable (map y_name (yn_fields N)) fs = Ok tt.
    Proof.
      intros L (F & G & E & E1 & E2 & K). rewrite E in *.
      inversion L as [|n0 F0 Fs0 f fs0 L1 L2]; subst. inversion L2 as [|n1 F1 Fs1 g fs1 L3 L4]; subst. inversion L4; subst.
      cbn [map check_nullable]. rewrite E1, E2. change (same_name (bstr "isNull") s_isNull) with true.
      change (same_name (bstr "value") s_value) with true. cbn [negb orb].
      inversion L3 as [n2 F2 off2 t2 x2 ex2 ft K2 TL EX| n2 F2 id2 N2 fs2 K2]; subst; [|reflexivity].
      rewrite K2 in K. cbn [is_pointer_slot].
      destruct t2; cbn [is_pointer_type] in K; try discriminate K; cbn [type_lay] in TL; subst; try reflexivity; contradiction.
    Qed.

    Lemma read_ok :
      (forall n F f, field_lay pyname R n F f -> named_ok n F -> forall o, is_field_obj F o ->
         exists n0, forall fuel, (n0 <= fuel)%nat -> read_field kwlist conv fuel nodes n o = Ok f) /\
      (forall n Fs fs, fields_lay pyname R n Fs fs -> Forall (named_ok n) Fs -> forall os, Forall2 is_field_obj Fs os ->
         exists n0, forall fuel, (n0 <= fuel)%nat -> read_fields fuel n os = Ok fs).
    Proof.
      apply (lay_ind pyname R
        (fun n F f _ => named_ok n F -> forall o, is_field_obj F o ->
           exists n0, forall fuel, (n0 <= fuel)%nat -> read_field kwlist conv fuel nodes n o = Ok f)
        (fun n Fs fs _ => Forall (named_ok n) Fs -> forall os, Forall2 is_field_obj Fs os ->
           exists n0, forall fuel, (n0 <= fuel)%nat -> read_fields fuel n os = Ok fs)).
      - intros n F off t x ex ft K TL EX NF o FO. pose proof (name_ok F o FO) as Nm. pose proof (order_ok F o FO) as Or.
        destruct (disc_ok F o FO) as (dv & Dv & Dd). destruct FO as (d & vs & D & _ & _ & _ & _ & KD). rewrite K in KD.
        destruct KD as (W & Off & Ex & Ty & Df).
        assert (Th : v_prim d 8 Fh = 0) by (apply small_tag; [lia|exact W|lia]).
        assert (G : attr_group c_Field o "slot" = Ok o).
        { eapply (attr_group_ok c_Field o d vs D); [reflexivity|]. cbn. split; [lia|exact Th]. }
        pose proof (type_shape _ _ Ty) as (dt & vt & Vt & _). pose proof Df as (dd & vd & Vd & _). rewrite Vt in Ty. rewrite Vd in Df.
        destruct (obj_ok c_Field_slot o d vs D "type" "type" 1 None 2 false dt vt eq_refl Logic.I ltac:(lia) Vt) as (to & To & Dt).
        destruct (obj_ok c_Field_slot o d vs D "defaultValue" "defaultValue" 2 None 3 false dd vd eq_refl Logic.I ltac:(lia) Vd) as (vo & Vo & Dvo).
        destruct (slot_ok t to dt vt ft Dt Ty TL) as (n0 & S0). exists (S n0). intros [|fuel] Hf; [lia|]. cbn [read_field].
        rewrite Nm. cbn [bind]. unfold named_ok in NF. rewrite NF. cbn [bind]. rewrite Or. cbn [bind]. rewrite Dv. cbn [bind].
        change (sn_utag c_Field) with (Some 4). rewrite (which_ok o d vs D 4) by lia. change (4 * 2) with 8. rewrite Th. cbn [bind Z.eqb].
        rewrite G. cbn [bind]. rewrite To. cbn [bind]. rewrite (S0 fuel) by lia. cbn [bind].
        rewrite (bool_ok c_Field_slot o d vs D "hadExplicitDefault" "hadExplicitDefault" 3 None 128 false eq_refl Logic.I) by lia.
        change (128 / 8) with 16. change (128 mod 8) with 0. rewrite Ex. cbn [bind].
        assert (C : (if ex && match ft with TPrim _ | TFloat32 | TFloat64 | TEnum | TBool => false | _ => true end
                   then Err ValueError else Ok tt) = @Ok unit tt).
        { destruct ex; [|reflexivity]. specialize (EX eq_refl). destruct t; cbn [can_default] in EX; try contradiction;
          cbn [type_lay] in TL; subst ft; reflexivity. }
        rewrite C. cbn [bind].
        rewrite (int_ok c_Field_slot o d vs D "offset" "offset" 0 None FI 1 false eq_refl Logic.I) by lia. change (1 * fsize FI) with 4.
        rewrite Off. cbn [bind]. rewrite Vo. cbn [bind]. rewrite (default_ok t x vo dd vd ft Dvo Df TL). cbn [bind]. now rewrite Dd.
      - intros n F id N fs K J L IH NS NF o FO. pose proof (name_ok F o FO) as Nm. pose proof (order_ok F o FO) as Or.
        destruct (disc_ok F o FO) as (dv & Dv & Dd). destruct FO as (d & vs & D & _ & _ & _ & An & KD). rewrite K in KD.
        destruct KD as (W & Tid).
        assert (Th : v_prim d 8 Fh = 1) by (apply small_tag; [lia|exact W|lia]).
        assert (G : attr_group c_Field o "group" = Ok o).
        { eapply (attr_group_ok c_Field o d vs D); [reflexivity|]. cbn. split; [lia|exact Th]. }
        destruct (struct_ok id N J) as (x & s & A & Gs & U & _ & _ & os & SF & FOs).
        assert (Nfs : Forall (named_ok id) (yn_fields N)) by (apply Forall_forall; intros F' J'; exact (NA id N F' J J')).
        destruct (IH Nfs os FOs) as (n0 & S0). exists (S n0). intros [|fuel] Hf; [lia|]. cbn [read_field].
        rewrite Nm. cbn [bind]. unfold named_ok in NF. rewrite NF. cbn [bind]. rewrite Or. cbn [bind]. rewrite Dv. cbn [bind].
        change (sn_utag c_Field) with (Some 4). rewrite (which_ok o d vs D 4) by lia. change (4 * 2) with 8. rewrite Th.
        cbn [bind Z.eqb Pos.eqb]. rewrite G. cbn [bind].
        rewrite (int_ok c_Field_group o d vs D "typeId" "typeId" 0 None FQ 2 false eq_refl Logic.I) by lia. change (2 * fsize FQ) with 16.
        rewrite Tid. cbn [bind]. rewrite A. cbn [bind]. rewrite SF. cbn [bind].
        match goal with |- context [@bind (list field) _ (?h os) _] => change (h os) with (read_fields fuel id os) end.
        rewrite (S0 fuel) by lia. cbn [bind]. rewrite Gs. cbn [bind]. rewrite U. cbn [bind].
        rewrite (nullable_ok F o d vs D An). cbn [bind]. rewrite (names_ok _ _ FOs). cbn [bind].
        destruct (marked F) eqn:M.
        + rewrite (nullable_fields id N fs L (NS eq_refl)). cbn [bind]. now rewrite Dd.
        + cbn [bind]. now rewrite Dd.
      - intros n _ os H. inversion H; subst. exists 0%nat. reflexivity.
      - intros n F Fs f fs L1 IH1 L2 IH2 NF os H. inversion H as [|F' o Fs' os' H1 H2]; subst. inversion NF; subst.
        destruct (IH1 ltac:(assumption) o H1) as (a & A). destruct (IH2 ltac:(assumption) os' H2) as (b & B).
        exists (Nat.max a b). intros fuel Hf.
        change (read_fields fuel n (o :: os')) with (do f <- read_field kwlist conv fuel nodes n o; do r <- read_fields fuel n os'; Ok (f :: r)).
        rewrite A by lia. cbn [bind]. rewrite B by lia. reflexivity.
    Qed.

    Lemma class_ok id sn : class_lay pyname R id sn ->
      exists n0, forall fuel, (n0 <= fuel)%nat -> read_struct kwlist conv fuel nodes id = Ok sn.
    Proof.
      intros (N & fs & J & L & ->). destruct (struct_ok id N J) as (x & s & A & Gs & U & DS & PS & os & SF & FOs).
      assert (Nfs : Forall (named_ok id) (yn_fields N)) by (apply Forall_forall; intros F' J'; exact (NA id N F' J J')).
      destruct (proj2 read_ok id _ fs L Nfs os FOs) as (n0 & S0). exists n0. intros fuel Hf. unfold read_struct.
      rewrite A. cbn [bind]. rewrite SF. cbn [bind].
      match goal with |- context [@bind (list field) _ (?h os) _] => change (h os) with (read_fields fuel id os) end.
      rewrite (S0 fuel) by lia. cbn [bind]. rewrite Gs. cbn [bind]. rewrite U. cbn [bind]. rewrite DS. cbn [bind]. rewrite PS. reflexivity.
    Qed.
  End fields.
End request.

Lemma collect_ok R o d vs : obj_den o d vs -> is_request R d vs ->
  exists nodes, collect_nodes o = Ok nodes /\ Forall2 node_of R nodes.
Proof.
  intros D ((ds & ps & items & sl & V & F) & _). unfold collect_nodes.
  destruct (list_ok c_CodeGeneratorRequest o d vs D "nodes" "nodes" 0 None 5 6 0 false ds ps items sl eq_refl Logic.I ltac:(lia) V) as (os & E & G).
  rewrite E. cbn [bind]. exact (ids_ok os items R G F).
Qed.

Lemma load_class_ok R kwlist conv pyname o d vs id sn : obj_den o d vs -> is_request R d vs ->
  (forall i N F, In (i, Some N) R -> In F (yn_fields N) -> py_name kwlist conv i (y_name F) = Ok (pyname i (y_name F))) ->
  class_lay pyname R id sn ->
  exists n0, forall fuel, (n0 <= fuel)%nat -> load_class kwlist conv fuel o id = Ok sn.
Proof.
  intros D Q NA L. destruct (collect_ok R o d vs D Q) as (nodes & E & NO).
  destruct (class_ok R (proj2 Q) nodes NO kwlist conv pyname NA id sn L) as (n0 & S0).
  exists n0. intros fuel Hf. unfold load_class. rewrite E. cbn [bind]. now apply S0.
Qed.

(** The name of a field in Python: the name in the schema, in ASCII, without
    camelCase if convert_case, with an underscore after it if it is a keyword
    (C42 is about this) *)
Definition ascii (b : bytes) : Prop := Forall (fun c => bZ c < 128) b.
Definition ascii_names (R : yrequest) : Prop :=
  forall id N F, In (id, Some N) R -> In F (yn_fields N) -> ascii (y_name F).
Definition name_in (kwlist : list str) (conv : Z -> bytes -> bool) (node : Z) (b : bytes) : string :=
  to_string (py_field_name kwlist (conv node b) (map bZ b)).

