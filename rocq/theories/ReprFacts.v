(** shortrepr depends only on the value, and on no error that [view] does not
    know: shortrepr = print of view. *)
From Coq Require Import Strings.String.
From Verif Require Import Base BaseFacts Spec Ptr PtrFacts Segment SegmentFacts Struct List Query StructFacts ReadFacts Case Enum CopyList Ctor Utf8 Loader Repr ReprSpec.
From Coq Require Import Lists.List.
Local Notation length := Datatypes.length.

Section facts.
  Variables (fp : floats) (S : schema).
  Hypothesis OK : schema_ok S.

  Definition good (c : nat) (d : bytes) (vs : list value) : Prop :=
    fits_class S c d vs \/ (d = [] /\ vs = []).

  Definition related (rec : nat -> obj -> res str) (vrec : nat -> bytes -> list value -> res tval) : Prop :=
    forall c o d vs, obj_den o d vs -> good c d vs ->
      rec c o = do x <- vrec c d vs; Ok (print x).

  Lemma elem_eq t : elem S t = itype_of S t.
  Proof. induction t; cbn [elem itype_of]; congruence. Qed.
  Lemma bind_assoc {A B C} (r : res A) (f : A -> res B) (g : B -> res C) :
    bind (bind r f) g = bind r (fun x => bind (f x) g).
  Proof. destruct r; reflexivity. Qed.
  Lemma bind_ext {A B} (r : res A) (f g : A -> res B) : (forall x, f x = g x) -> bind r f = bind r g.
  Proof. intros H. destruct r; cbn; [apply H|reflexivity]. Qed.

  Lemma text_view b : text_bytes_repr (Some b) = do x <- view_text b; Ok (print x).
  Proof. unfold text_bytes_repr, decode_maybe, view_text. destruct (utf8_decode b); reflexivity. Qed.

  (** ** Lists *)
  Lemma iter_repr_S F l n i : iter_repr F l (Datatypes.S n) i =
      match l_getitem l i with
      | Err IndexError => Ok []
      | Err e => Err e
      | Ok x => do s <- F x; do r <- iter_repr F l n (i + 1); Ok (s :: r)
      end.
  Proof. reflexivity. Qed.
  Lemma iter_view t rec vrec l v (F : item -> res str) (G : vitem -> res tval) :
    related rec vrec -> lobj_den l v -> l_it l = elem S t ->
    (forall i, 0 <= i < vcount v -> exists y, v_item (elem S t) v i = Some y /\ fits_item S t y) ->
    (forall x y, fits_item S t y -> item_den (l_seg l) (elem S t) x y -> F x = do z <- G y; Ok (print z)) ->
    forall n i, (i + n = Z.to_nat (vcount v))%nat ->
    iter_repr F l (Datatypes.S n) (Z.of_nat i) =
    do xs <- res_map (fun j => match v_item (elem S t) v (Z.of_nat j) with
                               | Some y => G y | None => Err TypeError end) (seq i n);
    Ok (map print xs).
  Proof.
    intros R L T Fits Item. pose proof (vcount_nonneg _ _ L) as P.
    induction n as [|n IH]; intros i E; rewrite iter_repr_S.
    - destruct (l_getitem_spec l v (Z.of_nat i) L) as (-> & _).
      unfold v_index. replace ((0 <=? Z.of_nat i) && (Z.of_nat i <? vcount v)) with false by lia.
      replace ((- vcount v <=? Z.of_nat i) && (Z.of_nat i <? 0)) with false by lia. reflexivity.
    - destruct (l_getitem_spec l v (Z.of_nat i) L) as (-> & _).
      unfold v_index. replace ((0 <=? Z.of_nat i) && (Z.of_nat i <? vcount v)) with true by lia.
      destruct (Fits (Z.of_nat i)) as (y & V & FI); [lia|].
      pose proof (read_item_spec l v (Z.of_nat i) y L) as RI. rewrite T in RI.
      specialize (RI ltac:(lia) V).
      assert (exists x, read_item l (Z.of_nat i) = Ok x /\ item_den (l_seg l) (elem S t) x y) as (x & -> & D).
      { destruct y as [| | | | |[b|e]|]; try exact RI. inversion FI. }
      change (seq i (Datatypes.S n)) with (i :: seq (Datatypes.S i) n). cbn [res_map]. rewrite V.
      rewrite (Item x y FI D). rewrite !bind_assoc. apply bind_ext. intros z. cbn [bind].
      replace (Z.of_nat i + 1) with (Z.of_nat (Datatypes.S i)) by lia. rewrite IH by lia.
      rewrite !bind_assoc. apply bind_ext. intros zs. reflexivity.
  Qed.

  Lemma list_view t : forall rec vrec l v, related rec vrec -> lobj_den l v -> l_it l = elem S t -> fits S (RList t) v ->
    list_repr (item_repr fp rec t) l = do x <- view_item fp S vrec (RList t) (VIList v); Ok (print x).
  Proof.
    assert (Step : forall t, (forall rec vrec l v x y, related rec vrec -> lobj_den l v -> fits_item S t y ->
        item_den (l_seg l) (elem S t) x y -> item_repr fp rec t x = do z <- view_item fp S vrec t y; Ok (print z)) ->
      forall rec vrec l v, related rec vrec -> lobj_den l v -> l_it l = elem S t -> fits S (RList t) v ->
      list_repr (item_repr fp rec t) l = do x <- view_item fp S vrec (RList t) (VIList v); Ok (print x)).
    { clear. intros t H rec vrec l v R L T F.
      assert (IT : forall i, 0 <= i < vcount v -> exists y, v_item (elem S t) v i = Some y /\ fits_item S t y)
        by (inversion F as [t0| | | |t0 v0 N I|]; subst; [cbn; lia|exact I]).
      unfold list_repr; cbn [view_item].
      destruct (lobj_den_attrs _ _ L) as (C & _); rewrite C. rewrite bind_assoc.
      pose proof (iter_view t rec vrec l v (item_repr fp rec t) (view_item fp S vrec t) R L T IT) as IV.
      specialize (IV (fun x y => H rec vrec l v x y R L) (Z.to_nat (vcount v)) 0%nat ltac:(lia)).
      change (Z.of_nat 0) with 0 in IV. rewrite IV, bind_assoc; apply bind_ext; intros; reflexivity. }
    induction t as [| |f| | |cls ms caps|u| |c|t IHt|]; apply Step; intros rec vrec l v x y R L FI D.
    all: inversion FI; subst; destruct x; cbn [item_den] in D; try contradiction; cbn [item_repr view_item].
    all: try (subst; reflexivity).
    all: try (destruct D as (-> & <-); reflexivity).
    - subst. match goal with |- context [enum_str ?a ?b] => destruct (enum_str a b) end; reflexivity.
    - destruct b as [b|]; subst; [apply text_view|reflexivity].
    - destruct b as [b|]; subst; [apply text_view|reflexivity].
    - destruct D as (D & _). apply R; [exact D|now left].
    - destruct D as (D & _ & I). apply (IHt rec vrec); try assumption.
  Qed.

  (** ** Fields *)
  Lemma which_view o d vs c u : obj_den o d vs -> rc_utag (S c) = Some u ->
    which o (rc_utag (S c)) = Ok (tag_of_class (S c) d).
  Proof.
    intros O U. unfold which, tag_of_class. rewrite U. unfold o_which.
    destruct (OK c) as (A & _). specialize (A u U). rewrite (o_read_primitive_spec _ _ _ _ _ O); [reflexivity|lia|cbn; lia].
  Qed.

  Lemma ensure_view o d vs c f : obj_den o d vs -> In f (rc_fields (S c)) -> current (S c) d f ->
    ensure_union o (rc_utag (S c)) (slot_of S f) = Ok tt.
  Proof.
    intros O I C. unfold ensure_union, current in *.
    assert (D : f_disc (slot_of S f) = rf_disc f) by (unfold slot_of; destruct (rf_kind f); reflexivity).
    rewrite D. destruct (rf_disc f) as [x|] eqn:X; [|reflexivity].
    destruct (OK c) as (_ & B). destruct (B f I) as (B1 & _). rewrite X in B1.
    destruct (rc_utag (S c)) as [u|] eqn:U; [|now destruct B1].
    pose proof (which_view o d vs c u O U) as W. rewrite U in W. unfold which in W.
    unfold o_ensure_union. rewrite W. cbn [bind]. rewrite C, Z.eqb_refl. reflexivity.
  Qed.

  Lemma has_view o d vs k : obj_den o d vs -> 0 <= k -> has_slot o k = Ok (negb (is_null (v_ptr vs k))).
  Proof.
    intros O K. unfold has_slot. replace (k * 8) with (8 * k) by lia.
    destruct (o_read_fast_ptr_spec _ _ _ _ O K) as (p & -> & D & W). cbn [bind]. f_equal.
    destruct (Z.eqb_spec p 0) as [->|N].
    - inversion D; subst; try reflexivity; try congruence;
        match goal with H : p_kind 0 = _ |- _ => unfold p_kind in H; cbn in H; discriminate end.
    - destruct (v_ptr vs k) eqn:V; try reflexivity. exfalso.
      inversion D as [|?|?|?|?|p0 pos pos' p' v K2 F K' N' D' E1 E2 E3]; subst; try congruence.
      inversion D'; subst; congruence.
  Qed.

  Lemma empty_obj : exists e, init_from_buffer {| sbuf := []; soffs := None |} 0 0 0 = Ok e /\ obj_den e [] [].
  Proof.
    eexists. split; [reflexivity|]. unfold obj_den. cbn. repeat split; try lia. constructor. unfold slen; cbn; lia.
  Qed.

  Lemma get_slot_view o d vs c f t off dflt : obj_den o d vs -> In f (rc_fields (S c)) -> current (S c) d f ->
    rf_kind f = KSlot t off dflt ->
    get_slot o (rc_utag (S c)) (slot_of S f) = read_slot o (ftype_of S t) off dflt.
  Proof.
    intros O I C K. pose proof (ensure_view o d vs c f O I C) as E. unfold slot_of in *. rewrite K in *.
    unfold get_slot. rewrite E. reflexivity.
  Qed.

  Lemma value_view rec vrec o d vs c f : related rec vrec -> obj_den o d vs -> good c d vs ->
    In f (rc_fields (S c)) -> current (S c) d f ->
    field_value fp S rec (rc_utag (S c)) o f = do x <- view_field fp S vrec d vs f; Ok (print x).
  Proof.
    intros R O G I C. unfold field_value, view_field.
    destruct (OK c) as (_ & B). destruct (B f I) as (_ & B2). clear B.
    destruct (rf_kind f) as [t off dflt|g nl] eqn:K.
    2:{ unfold get_group. rewrite (ensure_view o d vs c f O I C). cbn [bind].
        assert (exists o', init_from_buffer (o_seg o) (o_off o) (o_ds o) (o_ps o) = Ok o' /\ obj_den o' d vs) as (o' & -> & O').
        { exists o. split; [apply (init_ok o d vs O)|exact O]. }
        cbn [bind]. apply R; [exact O'|]. destruct G as [G|G]; [left|now right].
        inversion G as [c0 d0 vs0 G1 G2]; subst. eapply G2; eassumption. }
    pose proof (get_slot_view o d vs c f t off dflt O I C K) as GS.
    assert (FT : is_ptr S f = true -> fits S t (v_ptr vs off)).
    { intros P. destruct G as [G|(-> & ->)].
      - inversion G as [c0 d0 vs0 G1 G2]; subst. eapply G1; [exact I|exact C| |exact K].
        unfold is_ptr in P. rewrite K in P. destruct t; try discriminate P; exact Logic.I.
      - unfold v_ptr. replace (nth (Z.to_nat off) [] VNull) with VNull by (destruct (Z.to_nat off); reflexivity). constructor. }
    unfold is_ptr in FT. rewrite K in FT.
    unfold view_slot.
    destruct t as [| |fm| | |cls ms caps|u| |g|t|]; cbn [ftype_of ty_pointer] in *; try rewrite GS; try reflexivity.
    - (* bool *) cbn [read_slot]. rewrite (o_read_bit_spec _ _ _ _ _ O) by lia. cbn [bind].
      rewrite land_pow2_testbit by lia. destruct (dflt =? 0); cbn [negb]; rewrite ?xorb_false_r; reflexivity.
    - cbn [read_slot]. pose proof (fsize_pos fm). rewrite (o_read_primitive_spec _ _ _ _ _ O); [|nia|apply Z_mod_mult].
      reflexivity.
    - cbn [read_slot]. rewrite (o_read_primitive_spec _ _ _ _ _ O); [|lia|cbn; lia].
      cbn [bind]. unfold float_zero. destruct ((dflt =? 0) || (dflt =? 2 ^ 31)); reflexivity.
    - cbn [read_slot]. rewrite (o_read_primitive_spec _ _ _ _ _ O); [|lia|cbn; lia].
      cbn [bind]. unfold float_zero. destruct ((dflt =? 0) || (dflt =? 2 ^ 63)); reflexivity.
    - cbn [read_slot]. rewrite (o_read_primitive_spec _ _ _ _ _ O); [|lia|cbn; lia].
      cbn [bind]. unfold view_enum, xor_default. rewrite bind_assoc.
      destruct (enum_str ms (if negb (dflt =? 0) then Z.lxor (v_prim d (off * 2) Fh) dflt else v_prim d (off * 2) Fh)) as [[s|z]|]; reflexivity.
    - (* text *) assert (GM : get_method o (rc_utag (S c)) (slot_of S f) =
        (do b <- o_read_data o (off * 8) (Some []) (-1); Ok (match b with None => GNone | Some b => GBytes b end)))
        by (unfold slot_of; rewrite K; reflexivity).
      rewrite GM. clear GM. replace (off * 8) with (8 * off) by lia.
      specialize (FT eq_refl). inversion FT as [t0|u0 n b N E1 E2| | | |]; cbn [view_ptr].
      + rewrite (o_read_data_spec o d vs off (Some []) (-1) (Ok (Some [])) O B2) by (rewrite <- H0; reflexivity).
        cbn [bind]. apply text_view.
      + rewrite (o_read_data_spec o d vs off (Some []) (-1) (Ok (Some (sub b 0 (n + -1)))) O B2).
        2:{ rewrite <- E2. cbn [vbytes Z.eqb Pos.eqb]. replace ((0 <=? n + -1) && (-1 <=? 0)) with true by lia. reflexivity. }
        cbn [bind]. replace (n + -1) with (n - 1) by lia. apply text_view.
    - (* data *) assert (GM : get_method o (rc_utag (S c)) (slot_of S f) =
        (do b <- o_read_data o (off * 8) (Some []) 0; Ok (match b with None => GNone | Some b => GBytes b end)))
        by (unfold slot_of; rewrite K; reflexivity).
      rewrite GM. clear GM. replace (off * 8) with (8 * off) by lia.
      specialize (FT eq_refl). inversion FT as [t0| |n b N E1 E2| | |]; cbn [view_ptr].
      + rewrite (o_read_data_spec o d vs off (Some []) 0 (Ok (Some [])) O B2) by (rewrite <- H0; reflexivity).
        reflexivity.
      + rewrite (o_read_data_spec o d vs off (Some []) 0 (Ok (Some (sub b 0 (n + 0)))) O B2).
        2:{ rewrite <- E2. cbn [vbytes Z.eqb Pos.eqb]. replace ((0 <=? n + 0) && (0 <=? 0)) with true by lia. reflexivity. }
        cbn [bind]. replace (n + 0) with n by lia. reflexivity.
    - (* struct *)
      assert (GM : get_method o (rc_utag (S c)) (slot_of S f) =
        (do r <- read_slot o TStruct off dflt; match r with GNone =>
          do e <- init_from_buffer {| sbuf := []; soffs := None |} 0 0 0; Ok (GObj e) | _ => Ok r end)).
      { rewrite <- GS. unfold slot_of at 1. rewrite K. cbn [get_method ftype_of]. unfold slot_of. rewrite K. reflexivity. }
      rewrite GM. clear GM. cbn [read_slot]. replace (off * 8) with (8 * off) by lia.
      pose proof (o_read_struct_spec o d vs off O B2) as RS.
      specialize (FT eq_refl). inversion FT as [t0 E0 E1| | |c0 d' vs' FC E0 E1| |]; rewrite <- E1 in RS; cbn [view_ptr].
      + rewrite RS. cbn [bind]. destruct empty_obj as (e & -> & De). cbn [bind]. apply R; [exact De|]. right; auto.
      + destruct RS as (o' & -> & De & _). cbn [bind]. apply R; [exact De|]. left; assumption.
    - (* list *)
      assert (GM : get_method o (rc_utag (S c)) (slot_of S f) =
        (do r <- read_slot o (TList (itype_of S t)) off dflt; match r with GNone =>
          do l <- list_init {| sbuf := []; soffs := None |} 0 0 0 (itype_of S t); Ok (GList l) | _ => Ok r end)).
      { rewrite <- GS. unfold slot_of at 1. rewrite K. cbn [get_method ftype_of]. unfold slot_of. rewrite K. reflexivity. }
      rewrite GM. clear GM. cbn [read_slot]. replace (off * 8) with (8 * off) by lia. rewrite <- elem_eq.
      pose proof (o_read_list_spec o d vs off (elem S t) O B2) as RS.
      specialize (FT eq_refl).
      assert (VP : view_ptr fp S vrec (RList t) (v_ptr vs off) = view_item fp S vrec (RList t) (VIList (v_ptr vs off))) by (cbn [view_ptr]; destruct (v_ptr vs off); reflexivity).
      rewrite VP. clear VP.
      destruct (v_ptr vs off) as [|d' vs'|tg n b|ws|ds ps items sl] eqn:V.
      + rewrite RS. cbn [bind list_init]. change (0 =? LIST_SIZE_COMPOSITE) with false. cbn iota. cbn [bind].
        apply list_view; try assumption; [|reflexivity]. right. split; reflexivity.
      + inversion FT as [| | | |t0 v0 N N2 N3 N4|]. exfalso. eapply N; reflexivity.
      + destruct RS as (l & -> & L & _ & T). cbn [bind]. apply list_view; assumption.
      + destruct RS as (l & -> & L & _ & T). cbn [bind]. apply list_view; assumption.
      + destruct RS as (l & -> & L & _ & T). cbn [bind]. apply list_view; assumption.
  Qed.

  Lemma null_ptr vs f : null_field vs f = is_ptr S f && is_null (v_ptr vs (slot_index f)).
  Proof.
    unfold null_field, is_ptr, slot_index. destruct (rf_kind f) as [t off x|]; [|reflexivity]. destruct t; reflexivity.
  Qed.
  Lemma part_view rec vrec o d vs c f : related rec vrec -> obj_den o d vs -> good c d vs ->
    In f (rc_fields (S c)) ->
    field_part fp S rec (rc_utag (S c)) o f =
    do l <- (if is_nullable f && match rf_disc f with Some _ => true | None => false end
                 then Err AttributeError
                 else if shown_field (S c) d vs f
                 then do x <- view_field fp S vrec d vs f; Ok [(rf_cap f, x)] else Ok []);
    Ok (map (fun p => fst p ++ lit " = " ++ print (snd p)) l).
  Proof.
    intros R O G I. unfold field_part, shown_field. rewrite (null_ptr vs f).
    destruct (OK c) as (_ & B). destruct (B f I) as (B1 & B2).
    assert (K0 : is_ptr S f = true -> 0 <= slot_index f).
    { unfold is_ptr, slot_index. destruct (rf_kind f); [auto|discriminate]. }
    assert (App : current (S c) d f ->
      (do s <- field_value fp S rec (rc_utag (S c)) o f; Ok [rf_cap f ++ lit " = " ++ s]) =
      do l <- (do x <- view_field fp S vrec d vs f; Ok [(rf_cap f, x)]);
      Ok (map (fun p => fst p ++ lit " = " ++ print (snd p)) l)).
    { intros C. rewrite (value_view rec vrec o d vs c f R O G I C), !bind_assoc. apply bind_ext. intros x. reflexivity. }
    unfold current in App.
    destruct (rf_disc f) as [x|].
    - rewrite andb_true_r. destruct (is_nullable f); [reflexivity|].
      destruct (rc_utag (S c)) as [u|] eqn:U; [|exfalso; apply B1; [discriminate|reflexivity]].
      rewrite <- U. rewrite (which_view o d vs c u O U). cbn [bind].
      destruct (Z.eqb_spec (tag_of_class (S c) d) x) as [T|T]; cbn [negb andb]; [|reflexivity].
      rewrite <- U in App. specialize (App T). destruct (is_ptr S f).
      + rewrite (has_view o d vs _ O (K0 eq_refl)). cbn [bind andb].
        destruct (is_null (v_ptr vs (slot_index f))); cbn [negb orb andb]; [|exact App].
        destruct (x =? 0); cbn [negb]; [reflexivity|exact App].
      + exact App.
    - rewrite andb_false_r. specialize (App Logic.I). destruct (is_ptr S f).
      + rewrite (has_view o d vs _ O (K0 eq_refl)). cbn [bind andb].
        destruct (is_null (v_ptr vs (slot_index f))); cbn [negb]; [reflexivity|exact App].
      + exact App.
  Qed.

  Lemma related_fuel : forall fuel, related (shortrepr fuel fp S) (view fp S fuel).
  Proof.
    induction fuel as [|fuel IH]; intros c o d vs O G; [reflexivity|]. cbn [shortrepr view].
    assert (P : forall l, (forall f, In f l -> In f (rc_fields (S c))) ->
      parts (field_part fp S (shortrepr fuel fp S) (rc_utag (S c)) o) l =
      do b <- view_fields fp S (view fp S fuel) (S c) d vs l;
      Ok (map (fun p => fst p ++ lit " = " ++ print (snd p)) b)).
    { induction l as [|f l IHl]; intros Hl; [reflexivity|]. cbn [parts view_fields].
      rewrite (part_view _ _ o d vs c f IH O G (Hl f (or_introl eq_refl))).
      rewrite !bind_assoc. apply bind_ext. intros a. cbn [bind].
      rewrite IHl by (intros g Hg; apply Hl; now right). rewrite !bind_assoc. apply bind_ext. intros b.
      cbn [bind]. rewrite map_app. reflexivity. }
    rewrite P by auto. rewrite !bind_assoc. apply bind_ext. intros b. reflexivity.
  Qed.

  Theorem shortrepr_view fuel c o d vs : obj_den o d vs -> fits_class S c d vs ->
    shortrepr fuel fp S c o = do x <- view fp S fuel c d vs; Ok (print x).
  Proof. intros O F. apply related_fuel; [exact O|now left]. Qed.
End facts.
