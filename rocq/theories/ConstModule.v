(** Executing a generated module: every constant gets its value. *)
From Coq Require Import Strings.String.
From Verif Require Import Base BaseFacts Spec Ptr Segment Builder Struct List Query Case CaseFacts Options Loader Names NamesFacts
  Repr ReprSpec ReprParse StructFacts ReadFacts Enc ObjFacts Message MessageFacts MsgFinal AlignFacts Enum Ctor CtorProps PyExpr PyExprFacts
  Const ConstSpec ConstFacts.
From Coq Require Import Lists.List Sorting.Permutation.
Local Notation length := Datatypes.length.

(** ** One message, one segment *)
Lemma init_again s off ds ps o : init_from_buffer s off ds ps = Ok o ->
  init_from_buffer (o_seg o) (o_off o) (o_ds o) (o_ps o) = Ok o.
Proof. intros H. pose proof (init_inv _ _ _ _ _ H) as E. rewrite E at 1 2 3 4. exact H. Qed.
Lemma read_struct_init o k o' : o_read_struct o k = Ok (Some o') ->
  o_seg o' = o_seg o /\ init_from_buffer (o_seg o') (o_off o') (o_ds o') (o_ps o') = Ok o'.
Proof.
  unfold o_read_struct. intros H. apply bind_ok in H. destruct H as ((pos & p) & R & H).
  destruct (Z.eqb_spec p 0); [discriminate|]. apply bind_ok in H. destruct H as (_ & _ & H).
  apply bind_ok in H. destruct H as (x & J & H). apply ok_inj in H. injection H as ->.
  unfold init_from_pointer in J. apply bind_ok in J. destruct J as (_ & _ & J). split; [|exact (init_again _ _ _ _ _ J)].
  apply init_inv in J. now subst o'.
Qed.
Lemma loads_init raw o : loads raw = Ok (Some o) -> init_from_buffer (o_seg o) (o_off o) (o_ds o) (o_ps o) = Ok o.
Proof.
  intros L. destruct (loads_sound _ _ L) as (segs & pad & F & P & E & J).
  unfold open_segments in J. apply bind_ok in J. destruct J as (m & _ & J2). now apply read_struct_init in J2.
Qed.
Lemma reach_seg raw o0 : loads raw = Ok (Some o0) ->
  (forall o, reach_obj raw o -> o_seg o = o_seg o0) /\ (forall l, reach_list raw l -> l_seg l = o_seg o0).
Proof.
  intros L0. apply reach_ind.
  - intros o L. rewrite L in L0. apply ok_inj in L0. congruence.
  - intros o k o' _ E R. rewrite <- E. now apply read_struct_init in R.
  - intros l i o _ E _ H. rewrite <- E. unfold l_getitem in H. destruct (_ && _); [|discriminate]. unfold read_item in H.
    destruct (l_it l) as [| |f|dbl|ds0 ps0|add|inner] eqn:T.
    1: discriminate.
    1-3: apply bind_ok in H; destruct H as (? & _ & H); discriminate.
    2: repeat (apply bind_ok in H; destruct H as (? & ? & H)); try discriminate;
       destruct x0; apply bind_ok in H; destruct H as (? & ? & H); discriminate.
    2: repeat (apply bind_ok in H; destruct H as (? & ? & H)); try discriminate;
       destruct x0; apply bind_ok in H; destruct H as (? & ? & H); discriminate.
    apply bind_ok in H. destruct H as (x & J & H). apply ok_inj in H. injection H as ->. apply init_inv in J. now subst o.
  - intros o k t l _ E H. rewrite <- E. unfold o_read_list in H. apply bind_ok in H. destruct H as ((pos & p) & R & H).
    destruct (Z.eqb_spec p 0); [discriminate|]. apply bind_ok in H. destruct H as (_ & _ & H).
    apply bind_ok in H. destruct H as (x & J & H). apply ok_inj in H. injection H as ->. exact (list_init_seg _ _ _ _ _ _ J).
  - intros l i l' _ E H. rewrite <- E. unfold l_getitem in H. destruct (_ && _); [|discriminate]. unfold read_item in H.
    destruct (l_it l) as [| |f|dbl|ds0 ps0|add|inner] eqn:T.
    1: discriminate.
    1-4: apply bind_ok in H; destruct H as (? & _ & H); discriminate.
    1: repeat (apply bind_ok in H; destruct H as (? & ? & H)); try discriminate;
       destruct x0; apply bind_ok in H; destruct H as (? & ? & H); discriminate.
    apply bind_ok in H. destruct H as (q & _ & H). apply bind_ok in H. destruct H as ((pos & p) & Q & H).
    apply bind_ok in H. destruct H as (x & J & H). apply ok_inj in H. injection H as ->. exact (list_init_seg _ _ _ _ _ _ J).
Qed.

(** ** Looking names up *)
Lemma assoc_in {A} n (l : list (str * A)) a : assoc n l = Some a -> In (n, a) l.
Proof.
  induction l as [|(k, b) l IH]; [discriminate|]. cbn [assoc]. destruct (str_eqb k n) eqn:E.
  - apply str_eqb_spec in E as ->. intros H. injection H as ->. now left.
  - intros H. right. auto.
Qed.
Lemma assoc_app {A} n (l g : list (str * A)) : assoc n (l ++ g) = match assoc n l with Some a => Some a | None => assoc n g end.
Proof. induction l as [|(k, b) l IH]; [reflexivity|]. cbn [app assoc]. destruct (str_eqb k n); [reflexivity|exact IH]. Qed.
Lemma assoc_none {A} n (l : list (str * A)) : ~ In n (map fst l) -> assoc n l = None.
Proof.
  intros N. destruct (assoc n l) as [a|] eqn:E; [|reflexivity]. exfalso. apply N. apply assoc_in in E.
  apply in_map_iff. now exists (n, a).
Qed.
Lemma assoc_fun {A} n (l : list (str * A)) a : In (n, a) l -> (forall b, In (n, b) l -> b = a) -> assoc n l = Some a.
Proof.
  intros J U. destruct (assoc n l) as [b|] eqn:E.
  - apply assoc_in in E. now rewrite (U b E).
  - exfalso. induction l as [|(k, b) l IH]; [contradiction|]. cbn [assoc] in E. destruct (str_eqb k n) eqn:K; [discriminate|].
    destruct J as [J|J]; [injection J as -> ->; now rewrite str_eqb_refl' in K|]. apply IH; [exact J| |exact E].
    intros c Jc. apply U. now right.
Qed.
Lemma name_nil l g n : name l g n = name [] (l ++ g) n.
Proof. unfold name. rewrite assoc_app. cbn [assoc]. destruct (assoc n l); reflexivity. Qed.

Definition reserved (n : str) : Prop := n = lit "True" \/ n = lit "False" \/ n = lit "None".
Lemma name_assoc E n v : ~ reserved n -> assoc n E = Some v -> name [] E n = Ok v.
Proof.
  intros R A. unfold name. rewrite !str_eqb_ne by (intros ->; apply R; unfold reserved; tauto). cbn [assoc]. now rewrite A.
Qed.

(** ** The flattened file *)
Lemma tnode_all_ind (P : tnode -> Prop) :
  (forall n g kids, (forall k, In k kids -> P k) -> P (TStruct n g kids)) ->
  (forall n, P (TEnum n)) -> (forall n c, P (TConst n c)) -> (forall n, P (TAnn n)) -> (forall n, P (TOther n)) ->
  forall t, P t.
Proof.
  intros H1 H2 H3 H4 H5. fix F 1. intros [n g kids|n|n c|n|n]; [|apply H2|apply H3|apply H4|apply H5].
  apply H1. induction kids as [|k kids IH]; intros x Hx; [destruct Hx|]. destruct Hx as [<-|Hx]; [apply F|apply IH; exact Hx].
Qed.

Section module.
  Variables (I : imports) (nodes : list tnode) (rd : option (obj * obj)).
  Hypotheses (HI : imports_ok I) (HF : file_ok nodes).

  (** what a global name may be bound to before the constants *)
  Inductive gbind : str -> pyv -> Prop :=
  | gb_header : forall n v, assoc n (header false) = Some v -> gbind n v
  | gb_import : forall m ns, assoc m I = Some ns -> gbind m (VMod m)
  | gb_refl : forall a b, rd = Some (a, b) -> gbind (lit "_reflection_data") (VRefl a b)
  | gb_struct : forall p n g kids, In (p, TStruct n g kids) (flats nodes) -> gbind (pname p) (VCls (CUser (here p)))
  | gb_enum : forall p n, In (p, TEnum n) (flats nodes) -> gbind (pname p) (VEnumCls (here p))
  | gb_istruct : forall p n g kids, In (p, TStruct n g kids) (flats nodes) -> gbind (item_name p) (VItem (JStruct (here p)))
  | gb_ienum : forall p n, In (p, TEnum n) (flats nodes) -> gbind (item_name p) (VItem (JEnum (here p)))
  | gb_ann : forall n, In ([n], TAnn n) (flats nodes) -> gbind n VOther.

  Lemma flat_ne p t q x : In (q, x) (flat p t) -> q <> [].
  Proof.
    revert p. induction t as [n g kids IH|n|n c|n|n] using tnode_all_ind; intros p J; cbn [flat] in J.
    1: destruct J as [J|J]; [injection J as <- _; now destruct p|]; apply in_flat_map in J as (k & K & J); exact (IH k K _ J).
    all: destruct J as [J|[]]; injection J as <- _; now destruct p.
  Qed.
  Lemma flats_ne q x : In (q, x) (flats nodes) -> q <> [].
  Proof. intros J. apply in_flat_map in J as (k & _ & J). exact (flat_ne _ _ _ _ J). Qed.
  Lemma flats_ids q x : In (q, x) (flats nodes) -> Forall capnp_id q /\ Forall (fun n => ident n = true) q.
  Proof.
    intros J. pose proof (fo_names _ HF q x J) as F. split; eapply Forall_impl; try exact F; intros a (A & B & C); [|exact A].
    split; [|exact B]. intros ->. discriminate A.
  Qed.
  Lemma flats_fun q x y : In (q, x) (flats nodes) -> In (q, y) (flats nodes) -> x = y.
  Proof.
    intros J J'. pose proof (fo_distinct _ HF) as N. revert J J' N. generalize (flats nodes). intros l J J' N.
    induction l as [|(k, a) l IH]; [contradiction|]. cbn [map fst] in N. inversion N as [|? ? N1 N2]. subst.
    destruct J as [J|J], J' as [J'|J'].
    - congruence.
    - injection J as -> _. exfalso. apply N1. apply in_map_iff. now exists (q, y).
    - injection J' as -> _. exfalso. apply N1. apply in_map_iff. now exists (q, x).
    - auto.
  Qed.

  (** The pieces of a global name *)
  Inductive shape : str -> pyv -> list str -> Prop :=
  | sh_header : forall n v x, assoc n (header false) = Some v -> Loader.split underscore n = [[]; x] -> shape n v [[]; x]
  | sh_import : forall m ns l, assoc m I = Some ns -> l <> [] -> Loader.split underscore m = [] :: l ++ [lit "capnp"] -> shape m (VMod m) ([] :: l ++ [lit "capnp"])
  | sh_refl : forall a b, rd = Some (a, b) -> shape (lit "_reflection_data") (VRefl a b) [[]; lit "reflection"; lit "data"]
  | sh_class : forall p x v, In (p, x) (flats nodes) ->
      v = match x with TStruct _ _ _ => VCls (CUser (here p)) | TEnum _ => VEnumCls (here p) | _ => VOther end ->
      shape (join_ p) v p
  | sh_item : forall p x v, In (p, x) (flats nodes) ->
      v = match x with TStruct _ _ _ => VItem (JStruct (here p)) | _ => VItem (JEnum (here p)) end ->
      shape (item_name p) v ([] :: p ++ item_tail).
  Lemma shape_split n v l : shape n v l -> Loader.split underscore n = l.
  Proof.
    intros [n' v' x A B|m ns l' A _ B|a b R|p x v' J _|p x v' J _]; [exact B|exact B|reflexivity| |].
    - destruct (flats_ids _ _ J). apply split_join; [exact (flats_ne _ _ J)|assumption].
    - destruct (flats_ids _ _ J). unfold item_name. rewrite pname_join. apply split_item; [exact (flats_ne _ _ J)|assumption].
  Qed.
  Lemma import_split m : import_var m -> exists l, l <> [] /\ Loader.split underscore m = [] :: l ++ [lit "capnp"].
  Proof.
    intros (x & -> & _). exists (Loader.split underscore x). split; [destruct x as [|c x]; [discriminate|]; cbn [Loader.split]; destruct (c =? underscore); [discriminate|]; destruct (Loader.split underscore x); discriminate|].
    change (lit "_" ++ x ++ lit "_capnp") with ([] ++ underscore :: (x ++ underscore :: lit "capnp")). rewrite !split_app. reflexivity.
  Qed.
  Lemma header_split n v : assoc n (header false) = Some v -> exists x, Loader.split underscore n = [[]; x].
  Proof.
    intros A. apply assoc_in in A. unfold header in A. rewrite app_nil_r in A. cbn [In] in A.
    repeat destruct A as [A|A]; try contradiction; injection A as <- _; eexists; reflexivity.
  Qed.
  Lemma gbind_shape n v : gbind n v -> exists l, shape n v l.
  Proof.
    intros [n' v' A|m ns A|a b R|p m g kids J|p m J|p m g kids J|p m J|m J].
    - destruct (header_split _ _ A) as (x & E). exists [[]; x]. now constructor.
    - destruct (import_split m) as (l & Nl & E); [now destruct (HI m ns A)|]. exists ([] :: l ++ [lit "capnp"]). now apply sh_import with ns.
    - eexists. now constructor.
    - rewrite pname_join. exists p. eapply sh_class; [exact J|reflexivity].
    - rewrite pname_join. exists p. eapply sh_class; [exact J|reflexivity].
    - exists ([] :: p ++ item_tail). eapply sh_item; [exact J|reflexivity].
    - exists ([] :: p ++ item_tail). eapply sh_item; [exact J|reflexivity].
    - exists [m]. change m with (join_ [m]) at 1. eapply sh_class; [exact J|reflexivity].
  Qed.
  Lemma flats_no_empty q x : In (q, x) (flats nodes) -> ~ In [] q.
  Proof. intros J. apply ids_no_empty. now destruct (flats_ids _ _ J). Qed.
  Lemma capnp_tail (l l' : list str) x : x <> lit "capnp" -> l ++ [lit "capnp"] = l' ++ [x] -> False.
  Proof. intros N E. apply app_inj_tail in E as (_ & E). congruence. Qed.
  Lemma shape_fun n v v' l l' : shape n v l -> shape n v' l' -> v = v'.
  Proof.
    intros S S'. pose proof (shape_split _ _ _ S) as E. rewrite (shape_split _ _ _ S') in E. subst l'.
    assert (W : forall p x, In (p, x) (flats nodes) -> forall r, p = [] :: r -> False)
      by (intros q y Jq r E; apply (flats_no_empty q y Jq); rewrite E; now left).
    assert (W2 : forall p x, In (p, x) (flats nodes) -> (1 <= length p)%nat)
      by (intros q y Jq; pose proof (flats_ne q y Jq); destruct q; [congruence|cbn; lia]).
    destruct S as [n v x A B|m ns l A Nl B|a b R|p x v J V|p x v J V];
      inversion S' as [n2 v2 x2 A2 B2 E1 E2 E3|m2 ns2 l2 A2 Nl2 B2 E1 E2 E3|a2 b2 R2 E1 E2 E3|p2 x2 v2 J2 V2 E1 E2 E3|p2 x2 v2 J2 V2 E1 E2 E3]; clear S';
      try congruence.
    - exfalso. destruct l2 as [|y [|z l2]]; [congruence|discriminate E3|discriminate E3].
    - exfalso. first [exact (W _ _ J2 _ E3)|exact (W _ _ J2 _ eq_refl)|exact (W _ _ J2 _ (eq_sym E3))].
    - exfalso. apply (f_equal (@List.length _)) in E3. cbn [List.length] in E3. rewrite app_length in E3. pose proof (W2 _ _ J2). cbn in E3. lia.
    - exfalso. apply (f_equal (@List.length _)) in E3. cbn [List.length] in E3. rewrite app_length in E3. destruct l as [|y l]; [congruence|]. cbn in E3. lia.
    - exfalso. apply (capnp_tail l [lit "reflection"] (lit "data")); [discriminate|first [exact E3|now symmetry]].
    - exfalso. first [exact (W _ _ J2 _ E3)|exact (W _ _ J2 _ eq_refl)|exact (W _ _ J2 _ (eq_sym E3))].
    - exfalso. 
      apply (capnp_tail l (p2 ++ [lit "list"; lit "item"]) (lit "type")); [discriminate|]. symmetry. rewrite <- app_assoc. exact E3.
    - exfalso. exact (capnp_tail l2 [lit "reflection"] (lit "data") ltac:(discriminate) E3).
    - exfalso. first [exact (W _ _ J2 _ E3)|exact (W _ _ J2 _ eq_refl)|exact (W _ _ J2 _ (eq_sym E3))].
    - exfalso. apply (f_equal (@List.length _)) in E3. cbn [List.length] in E3. rewrite app_length in E3. pose proof (W2 _ _ J2). cbn in E3. lia.
    - exfalso. first [exact (W _ _ J _ E3)|exact (W _ _ J _ eq_refl)|exact (W _ _ J _ (eq_sym E3))].
    - exfalso. first [exact (W _ _ J _ E3)|exact (W _ _ J _ eq_refl)|exact (W _ _ J _ (eq_sym E3))].
    - exfalso. first [exact (W _ _ J _ E3)|exact (W _ _ J _ eq_refl)|exact (W _ _ J _ (eq_sym E3))].
    - subst p2. rewrite (flats_fun p x2 x J2 J) in *. congruence.
    - exfalso. first [exact (W _ _ J _ E3)|exact (W _ _ J _ eq_refl)|exact (W _ _ J _ (eq_sym E3))].
    - exfalso. apply (f_equal (@List.length _)) in E3. cbn [List.length] in E3. rewrite app_length in E3. pose proof (W2 _ _ J). cbn in E3. lia.
    - exfalso. 
      apply (capnp_tail l2 (p ++ [lit "list"; lit "item"]) (lit "type")); [discriminate|]. rewrite <- app_assoc. exact E3.
    - exfalso. apply (f_equal (@List.length _)) in E3. cbn [List.length] in E3. rewrite app_length in E3. pose proof (W2 _ _ J). cbn in E3. lia.
    - exfalso. first [exact (W _ _ J2 _ E3)|exact (W _ _ J2 _ eq_refl)|exact (W _ _ J2 _ (eq_sym E3))].
    - apply app_inv_tail in E3. subst p2. rewrite (flats_fun p x2 x J2 J) in *. congruence.
  Qed.
  Lemma gbind_fun n v v' : gbind n v -> gbind n v' -> v = v'.
  Proof. intros A B. destruct (gbind_shape _ _ A) as (l & S). destruct (gbind_shape _ _ B) as (l' & S'). exact (shape_fun _ _ _ _ _ S S'). Qed.

  (** no global name is reserved; one without underscore is a class or an annotation *)
  Lemma split_no_under n : ~ In underscore n -> Loader.split underscore n = [n].
  Proof. apply split_one. Qed.
  Lemma gbind_reserved n v : gbind n v -> ~ reserved n.
  Proof.
    intros G R. assert (U : ~ In underscore n) by (destruct R as [-> |[-> | ->]]; cbn; intuition discriminate).
    destruct (gbind_shape _ _ G) as (l & S). pose proof (shape_split _ _ _ S) as E. rewrite (split_no_under _ U) in E.
    destruct S as [n v x A B|m ns l A Nl B|a b Rd|p x v J V|p x v J V]; try discriminate E.
    - destruct l; [congruence|discriminate E].
    - destruct p as [|y [|z p]]; [discriminate E| |discriminate E]. cbn [join_] in *.
      pose proof (fo_names _ HF _ _ J) as F. inversion F as [|? ? (_ & _ & K) _]. subst. apply K.
      destruct R as [-> |[-> | ->]]; cbn; tauto.
  Qed.
  Lemma gbind_no_under n v : gbind n v -> ~ In underscore n -> exists x, In ([n], x) (flats nodes).
  Proof.
    intros G U. destruct (gbind_shape _ _ G) as (l & S). pose proof (shape_split _ _ _ S) as E. rewrite (split_no_under _ U) in E.
    destruct S as [n v x A B|m ns l A Nl B|a b Rd|p x v J V|p x v J V]; try discriminate E.
    - destruct l; [congruence|discriminate E].
    - destruct p as [|y [|z p]]; [discriminate E| |discriminate E]. cbn [join_]. eauto.
  Qed.

  (** ** The state of the module after the declarations, the structs [done] being complete *)
  Record globals_ok (done : list (list str)) (g : list (str * pyv)) : Prop := {
    go_all : forall n v, In (n, v) g -> gbind n v;
    go_header : forall n v, assoc n (header false) = Some v -> In (n, v) g;
    go_import : forall m ns, assoc m I = Some ns -> In (m, VMod m) g;
    go_refl : forall a b, rd = Some (a, b) -> In (lit "_reflection_data", VRefl a b) g;
    go_struct : forall p n gr kids, In (p, TStruct n gr kids) (flats nodes) -> In (pname p, VCls (CUser (here p))) g;
    go_ienum : forall p n, In (p, TEnum n) (flats nodes) -> In (item_name p, VItem (JEnum (here p))) g;
    go_enum : forall p n, In (p, TEnum n) (flats nodes) -> In (pname p, VEnumCls (here p)) g;
    go_item : forall p, In p done -> In (item_name p, VItem (JStruct (here p))) g }.

  Section lookup.
    Variables (done : list (list str)) (g ex l G : list (str * pyv)).
    Hypotheses (HG : globals_ok done g) (HE : l ++ G = ex ++ g) (HU : forall x, In x (map fst ex) -> ~ In underscore x).

    Lemma lookup n v : In (n, v) g -> In underscore n \/ ~ In n (map fst ex) -> name l G n = Ok v.
    Proof.
      intros J X. rewrite name_nil, HE. apply name_assoc.
      - apply (gbind_reserved n v). exact (go_all _ _ HG _ _ J).
      - rewrite assoc_app, assoc_none.
        + apply assoc_fun; [exact J|]. intros b Jb. apply (gbind_fun n); [exact (go_all _ _ HG _ _ Jb)|exact (go_all _ _ HG _ _ J)].
        + intros K. destruct X as [X|X]; [exact (HU n K X)|exact (X K)].
    Qed.
    Lemma header_under n v : assoc n (header false) = Some v -> In underscore n.
    Proof.
      intros A. apply assoc_in in A. unfold header in A. rewrite app_nil_r in A. cbn [In] in A.
      repeat destruct A as [A|A]; try contradiction; injection A as <- _; now left.
    Qed.
    Lemma lookup_header : header_ok false l G.
    Proof. intros n v A. apply lookup; [exact (go_header _ _ HG n v A)|left; exact (header_under n v A)]. Qed.
    Lemma lookup_modules : modules_ok I l G.
    Proof.
      intros m ns A. apply lookup; [exact (go_import _ _ HG m ns A)|]. left. destruct (HI m ns A) as ((x & -> & _) & _). now left.
    Qed.
    Lemma lookup_item p v : In (item_name p, v) g -> name l G (item_name p) = Ok v.
    Proof. intros J. apply lookup; [exact J|]. left. now left. Qed.
    Lemma join_under x y p : In underscore (join_ (x :: y :: p)).
    Proof. change (join_ (x :: y :: p)) with (x ++ underscore :: join_ (y :: p)). apply in_or_app. right. now left. Qed.
    Lemma lookup_class p v : In (pname p, v) g -> (forall x, p = [x] -> ~ In x (map fst ex)) -> p <> [] -> name l G (pname p) = Ok v.
    Proof.
      intros J X N. apply lookup; [exact J|]. rewrite pname_join. destruct p as [|x [|y p]]; [congruence| |left; apply join_under].
      right. cbn [join_]. exact (X x eq_refl).
    Qed.

    Variables (fuel : nat) (fp : floats) (raw : bytes) (file_opts : opts) (request dopts : obj) (sizes : cref -> Z * Z).
    Hypotheses (HR : loads raw = Ok (Some request)) (HD : on file_opts -> rd = Some (request, dopts)).

    Lemma refl_lookup c : on file_opts -> reach_obj raw (cc_value c) -> reflection_visible l G (o_seg (cc_value c)).
    Proof.
      intros O R. exists request, dopts. split.
      - apply lookup; [exact (go_refl _ _ HG _ _ (HD O))|]. left. now left.
      - symmetry. exact (proj1 (reach_seg raw request HR) _ R).
    Qed.

    Variables (p : list str) (before : list str).
    Hypothesis (HB : forall x t, In x (map fst ex) -> In ([x], TStruct x false t) (flats nodes) \/ In ([x], TStruct x true t) (flats nodes) -> In x before).
    Hypothesis (HO : forall q n gr kids, In (q, TStruct n gr kids) (flats nodes) ->
      p = [] \/ (exists l1 l2, order nodes = l1 ++ p :: l2 /\ In q l1) -> In q done).

    Lemma item_lookup st r : item_ready I nodes p st r -> item_visible false I l G st r.
    Proof.
      intros (D & X). unfold item_visible, is_declared in *. destruct r as [[m|] q]; cbn [cr_file cr_path] in *.
      - destruct D as (N & ns & A & D). split; [exact N|]. exists ns. auto.
      - destruct D as (t & J & K). split; [exact (flats_ne _ _ J)|]. split; [exact (proj2 (flats_ids _ _ J))|].
        apply lookup_item. destruct t as [n gr kids|n|n c|n|n]; try contradiction; subst st.
        + apply (go_item _ _ HG). apply (HO q n gr kids J). now apply X.
        + exact (go_ienum _ _ HG q n J).
    Qed.
    Lemma items_lookup t : items_ready I nodes p t -> items_visible false I l G t.
    Proof. induction t; cbn [items_ready items_visible]; auto using item_lookup. Qed.

    Lemma flat_name p0 t q x : In (q, x) (flat p0 t) -> exists r, q = r ++ [tname x].
    Proof.
      revert p0. induction t as [n gr kids IH|n|n c|n|n] using tnode_all_ind; intros p0 J; cbn [flat] in J.
      1: destruct J as [J|J]; [injection J as <- <-; now exists p0|]; apply in_flat_map in J as (k & K & J); exact (IH k K _ J).
      all: destruct J as [J|[]]; injection J as <- <-; now exists p0.
    Qed.
    Lemma flats_name q x : In (q, x) (flats nodes) -> exists r, q = r ++ [tname x].
    Proof. intros J. apply in_flat_map in J as (k & _ & J). exact (flat_name _ _ _ _ J). Qed.

    Lemma const_usable c : const_ok fuel fp I raw file_opts nodes p before c ->
      exists d vs, obj_den (cc_value c) d vs /\ carries fp d vs (cc_type c) /\ usable false I l G fuel raw c vs.
    Proof.
      intros (R & d & vs & O & C & K). exists d, vs. split; [exact O|]. split; [exact C|]. unfold usable.
      destruct (cc_type c) as [| |f| | | | |t|r|r| |]; try exact Logic.I.
      - destruct K as (K1 & K2 & K3 & K4). split; [exact K1|]. split; [now apply refl_lookup|]. split; [now apply items_lookup|exact K4].
      - destruct K as (K1 & K2 & K3). split.
        + unfold class_visible, is_declared in *. destruct r as [[m|] q]; cbn [cr_file cr_path] in *; [exact K1|].
          destruct K1 as (t & J & K). split; [exact (flats_ne _ _ J)|]. split; [exact (proj2 (flats_ids _ _ J))|].
          destruct t as [n gr kids|n|n c'|n|n]; try contradiction; try discriminate K.
          apply lookup_class; [exact (go_struct _ _ HG q n gr kids J)| |exact (flats_ne _ _ J)].
          intros x -> X. apply (K2 eq_refl x eq_refl). apply (HB x kids X).
          destruct (flats_name _ _ J) as (r & E). change [x] with ([] ++ [x]) in E. apply app_inj_tail in E as (_ & E).
          cbn [tname] in E. subst n. destruct gr; [now right|now left].
        + destruct K3 as [(K3 & K4)|K3]; [left|right; exact K3]. split; [exact K3|]. now apply refl_lookup.
    Qed.
    Lemma const_runs c : const_ok fuel fp I raw file_opts nodes p before c ->
      exists text v d vs, emit_const fuel fp false c = Ok text /\ evals false I sizes l G text (Ok v) /\ obj_den (cc_value c) d vs /\
        is_value sizes fp (text_type (cc_opts c)) d vs (cc_type c) v.
    Proof.
      intros C. destruct (const_usable c C) as (d & vs & O & K & U).
      destruct (const_evals false I sizes l G lookup_header lookup_modules HI fuel raw fp c d vs O K U) as (text & v & E1 & E2 & E3).
      exists text, v, d, vs. auto.
    Qed.
  End lookup.

  (** ** The order of the structs *)
  Definition is_struct (e : list str * tnode) : bool := match snd e with TStruct _ _ _ => true | _ => false end.
  Lemma posts_perm t p : Permutation (map fst (filter is_struct (flat p t))) (posts p t).
  Proof.
    revert p. induction t as [n g kids IH|n|n c|n|n] using tnode_all_ind; intros p; try reflexivity.
    cbn [flat posts tname]. cbn [filter is_struct snd map fst]. rewrite Permutation_cons_append. apply Permutation_app_tail.
    induction kids as [|k kids IHk]; [reflexivity|]. cbn [flat_map]. rewrite filter_app, map_app. apply Permutation_app.
    - apply IH. now left.
    - apply IHk. intros x Hx. apply IH. now right.
  Qed.
  Lemma order_perm : Permutation (map fst (filter is_struct (flats nodes))) (order nodes).
  Proof.
    clear HF. unfold flats, order. induction nodes as [|k kids IHk]; [reflexivity|]. cbn [flat_map]. rewrite filter_app, map_app. apply Permutation_app; [apply posts_perm|exact IHk].
  Qed.
  Lemma NoDup_filter_fst {A B} (f : A * B -> bool) l : NoDup (map fst l) -> NoDup (map fst (filter f l)).
  Proof.
    induction l as [|a l IH]; [auto|]. cbn [map filter]. intros N. inversion N as [|? ? N1 N2]. subst.
    destruct (f a); [|auto]. cbn [map]. constructor; [|auto]. intros J. apply N1. apply in_map_iff in J as (b & E & J).
    apply filter_In in J as (J & _). apply in_map_iff. eauto.
  Qed.
  Lemma order_nodup : NoDup (order nodes).
  Proof. apply (Permutation_NoDup order_perm). apply NoDup_filter_fst. exact (fo_distinct _ HF). Qed.
  Lemma order_in q n g kids : In (q, TStruct n g kids) (flats nodes) -> In q (order nodes).
  Proof.
    intros J. apply (Permutation_in _ order_perm). apply in_map_iff. exists (q, TStruct n g kids). split; [reflexivity|].
    apply filter_In. auto.
  Qed.
  Lemma split_unique {A} (l1 l2 l3 l4 : list A) x : NoDup (l1 ++ x :: l2) -> l1 ++ x :: l2 = l3 ++ x :: l4 -> l1 = l3.
  Proof.
    revert l3. induction l1 as [|a l1 IH]; intros [|b l3] N E; [reflexivity| | |].
    - cbn [app] in E. injection E as <- E. exfalso. cbn [app] in N. inversion N as [|? ? N1 _]. apply N1. rewrite E. apply in_or_app. right. now left.
    - cbn [app] in E. injection E as -> E. exfalso. cbn [app] in N. inversion N as [|? ? N1 _]. apply N1. apply in_or_app. right. now left.
    - cbn [app] in *. injection E as -> E. inversion N as [|? ? _ N2]. f_equal. now apply IH.
  Qed.

  (** ** Running statements *)
  Variables (fuel : nat) (fp : floats) (raw : bytes) (file_opts : opts) (request dopts : obj) (sizes : cref -> Z * Z).
  Notation run := (run false I sizes).
  Notation body := (body false I sizes).

  (** *** Declarations *)
  Definition steps (s : mstate) (l : list mstmt) (s' : mstate) : Prop := forall rest r, run s' rest r -> run s (l ++ rest) r.
  Lemma steps_app s l s' l' s'' : steps s l s' -> steps s' l' s'' -> steps s (l ++ l') s''.
  Proof. intros A B rest r R. rewrite <- app_assoc. apply A, B, R. Qed.

  Record decl_spec (p : list str) (t : list (list str * tnode)) (new : list (str * pyv)) : Prop := {
    ds_all : forall n v, In (n, v) new -> gbind n v;
    ds_struct : forall q n gr kids, In (q, TStruct n gr kids) t -> In (pname q, VCls (CUser (here q))) new;
    ds_ienum : forall q n, In (q, TEnum n) t -> In (item_name q, VItem (JEnum (here q))) new;
    ds_enum : forall q n, In (q, TEnum n) t -> In (pname q, VEnumCls (here q)) new }.
  Lemma decls_struct p n gr kids : decls p (TStruct n gr kids) =
    do l <- all (decls (p ++ [n])) kids; Ok (l ++ [MBind (pname (p ++ [n])) (BStruct (here (p ++ [n])))]).
  Proof.
    cbn [decls]. set (q := p ++ [n]). match goal with |- bind ?a _ = bind ?b _ => assert (E : a = b); [|now rewrite E] end.
    induction kids as [|k kids IH]; [reflexivity|]. cbn [all]. now rewrite <- IH.
  Qed.

  Lemma decls_all_run p l : (forall t, In t l -> forall g cs, exists stmts new, decls p t = Ok stmts /\
      steps (mkmstate g cs) stmts (mkmstate (new ++ g) cs) /\ decl_spec p (flat p t) new) ->
    forall g cs, exists stmts new, all (decls p) l = Ok stmts /\
      steps (mkmstate g cs) stmts (mkmstate (new ++ g) cs) /\ decl_spec p (flat_map (flat p) l) new.
  Proof.
    induction l as [|t l IH]; intros H g cs.
    - exists [], []. split; [reflexivity|]. split; [now intros rest r R|]. constructor; cbn [flat_map In]; contradiction.
    - destruct (H t (or_introl eq_refl) g cs) as (s1 & n1 & E1 & R1 & D1).
      destruct (IH (fun x Hx => H x (or_intror Hx)) (n1 ++ g) cs) as (s2 & n2 & E2 & R2 & D2).
      exists (s1 ++ s2), (n2 ++ n1). split; [cbn [all]; rewrite E1; cbn [bind]; rewrite E2; reflexivity|].
      split; [rewrite <- app_assoc; exact (steps_app _ _ _ _ _ R1 R2)|].
      constructor; cbn [flat_map]; intros *; rewrite in_app_iff; (intros [J|J]; [|]); try (apply in_or_app).
      + exact (ds_all _ _ _ D2 _ _ J). + exact (ds_all _ _ _ D1 _ _ J).
      + right. exact (ds_struct _ _ _ D1 _ _ _ _ J). + left. exact (ds_struct _ _ _ D2 _ _ _ _ J).
      + right. exact (ds_ienum _ _ _ D1 _ _ J). + left. exact (ds_ienum _ _ _ D2 _ _ J).
      + right. exact (ds_enum _ _ _ D1 _ _ J). + left. exact (ds_enum _ _ _ D2 _ _ J).
  Qed.
  Lemma decls_run t : forall p, (forall e, In e (flat p t) -> In e (flats nodes)) -> forall g cs, exists stmts new, decls p t = Ok stmts /\
      steps (mkmstate g cs) stmts (mkmstate (new ++ g) cs) /\ decl_spec p (flat p t) new.
  Proof.
    induction t as [n gr kids IH|n|n c|n|n] using tnode_all_ind; intros p S g cs.
    - destruct (decls_all_run (p ++ [n]) kids) with (g := g) (cs := cs) as (stmts & new & E & R & D).
      { intros t Ht g0 cs0. apply (IH t Ht). intros e He. apply S. cbn [flat]. right. apply in_flat_map. eauto. }
      set (q := p ++ [n]) in *. assert (J : In (q, TStruct n gr kids) (flats nodes)) by (apply S; left; reflexivity).
      exists (stmts ++ [MBind (pname q) (BStruct (here q))]), ((pname q, VCls (CUser (here q))) :: new).
      split; [rewrite decls_struct; fold q; rewrite E; reflexivity|]. split.
      + apply (steps_app _ _ _ _ _ R). intros rest r X. cbn [app]. apply run_bind. exact X.
      + cbn [flat tname]. fold q. constructor; cbn [In].
        * intros n' v [X|X]; [injection X as <- <-; exact (gb_struct q n gr kids J)|exact (ds_all _ _ _ D _ _ X)].
        * intros q' n' gr' kids' [X|X]; [injection X as <- _ _ _; now left|right; exact (ds_struct _ _ _ D _ _ _ _ X)].
        * intros q' n' [X|X]; [discriminate|right; exact (ds_ienum _ _ _ D _ _ X)].
        * intros q' n' [X|X]; [discriminate|right; exact (ds_enum _ _ _ D _ _ X)].
    - set (q := p ++ [n]) in *. assert (J : In (q, TEnum n) (flats nodes)) by (apply S; left; reflexivity).
      exists [MBind (pname q) (BEnum (here q)); MBind (item_name q) (BItemEnum (here q))],
        [(item_name q, VItem (JEnum (here q))); (pname q, VEnumCls (here q))].
      split; [reflexivity|]. split; [intros rest r X; cbn [app]; apply run_bind, run_bind; exact X|].
      cbn [flat tname]. fold q. constructor; cbn [In].
      + intros n' v [X|[X|[]]]; injection X as <- <-; [exact (gb_ienum q n J)|exact (gb_enum q n J)].
      + intros q' n' gr' kids' [X|[]]; discriminate.
      + intros q' n' [X|[]]; injection X as <- _. now left.
      + intros q' n' [X|[]]; injection X as <- _. right. now left.
    - exists [], []. split; [reflexivity|]. split; [now intros rest r R|]. constructor; cbn [flat tname In]; try contradiction; intros; repeat match goal with H : _ \/ _ |- _ => destruct H | H : False |- _ => destruct H end; discriminate.
    - assert (J : In (p ++ [n], TAnn n) (flats nodes)) by (apply S; left; reflexivity).
      pose proof (fo_kinds _ HF _ _ J) as L. cbn beta iota in L. assert (Ep : p = []) by (destruct p as [|x [|y p]]; [reflexivity|discriminate L|discriminate L]). subst p.
      exists [MBind n BAnn], [(n, VOther)]. split; [reflexivity|]. split; [intros rest r X; cbn [app]; apply run_bind; exact X|].
      constructor; cbn [flat tname In].
      + intros n' v [X|[]]; injection X as <- <-. exact (gb_ann n J).
      + intros q' n' gr' kids' [X|[]]; discriminate.
      + intros q' n' [X|[]]; discriminate.
      + intros q' n' [X|[]]; discriminate.
    - exfalso. assert (J : In (p ++ [n], TOther n) (flats nodes)) by (apply S; left; reflexivity). exact (fo_kinds _ HF _ _ J).
  Qed.

  (** *** Classes *)
  Hypotheses (HR : loads raw = Ok (Some request)) (HD : on file_opts -> rd = Some (request, dopts))
             (HC : consts_ok fuel fp I raw file_opts nodes).

  (** the constant [n] of type [cc_type c] has its value *)
  Definition const_value (ns : list (str * pyv)) (n : str) (c : cconst) : Prop :=
    exists d vs v, obj_den (cc_value c) d vs /\ is_value sizes fp (text_type (cc_opts c)) d vs (cc_type c) v /\ In (n, v) ns.

  Lemma flat_kids p0 t : forall q n gr kids k, In (q, TStruct n gr kids) (flat p0 t) -> In k kids -> In (q ++ [tname k], k) (flat p0 t).
  Proof.
    revert p0. induction t as [n gr kids IH|n|n c|n|n] using tnode_all_ind; intros p0 q n' gr' kids' k J K; cbn [flat] in J.
    1: { destruct J as [J|J].
         - injection J as <- <- <- <-. cbn [flat tname]. right. apply in_flat_map. exists k. split; [exact K|]. destruct k; now left.
         - cbn [flat]. right. apply in_flat_map in J as (x & X & J). apply in_flat_map. exists x. split; [exact X|]. exact (IH x X _ _ _ _ _ _ J K). }
    all: destruct J as [J|[]]; discriminate.
  Qed.
  Lemma flats_kids q n gr kids k : In (q, TStruct n gr kids) (flats nodes) -> In k kids -> In (q ++ [tname k], k) (flats nodes).
  Proof. intros J K. apply in_flat_map in J as (x & X & J). apply in_flat_map. exists x. split; [exact X|]. exact (flat_kids _ _ _ _ _ _ _ J K). Qed.
  Lemma bound_in x l : In x (bound_names l) -> exists k, In k l /\ tname k = x /\ match k with TStruct _ false _ | TEnum _ | TConst _ _ => True | _ => False end.
  Proof.
    intros J. apply in_flat_map in J as (k & K & J). exists k. split; [exact K|].
    destruct k as [n [] kids|n|n c|n|n]; cbn [In] in J; try contradiction; destruct J as [<-|[]]; split; reflexivity || exact Logic.I.
  Qed.

  Lemma body_runs done g p m gr kids : globals_ok done g -> In (p, TStruct m gr kids) (flats nodes) ->
    (exists rest, order nodes = done ++ p :: rest) ->
    forall k2 k1 locals, kids = k1 ++ k2 -> (forall x, In x (map fst locals) -> In x (bound_names k1)) ->
    exists texts new, child_refs fuel fp false p k2 = Ok texts /\ body g locals texts (Ok (new ++ locals)) /\
      map fst new = rev (bound_names k2) /\ (forall n c, In (TConst n c) k2 -> const_value new n c).
  Proof.
    intros G J (rest & Or). induction k2 as [|k k2 IH]; intros k1 locals E L.
    - exists [], []. split; [reflexivity|]. split; [constructor|]. split; [reflexivity|]. intros n c [].
    - assert (Kin : In k kids) by (rewrite E; apply in_or_app; right; now left).
      pose proof (flats_kids _ _ _ _ _ J Kin) as Jk.
      assert (HU : forall x, In x (map fst locals) -> ~ In underscore x).
      { intros x X. apply L in X. apply bound_in in X as (y & Y & <- & _).
        assert (Jy : In (p ++ [tname y], y) (flats nodes)) by (apply (flats_kids _ _ _ _ _ J); rewrite E; apply in_or_app; now left).
        pose proof (fo_names _ HF _ _ Jy) as F. apply Forall_app in F as (_ & F). inversion F as [|? ? (_ & U & _) _]. exact U. }
      assert (Pn : p <> []) by exact (flats_ne _ _ J).
      assert (Ln : forall v, In (pname (p ++ [tname k]), v) g -> name locals g (pname (p ++ [tname k])) = Ok v).
      { intros v Jv. apply (lookup_class done g locals locals g G eq_refl HU); [exact Jv| |now destruct p].
        intros x X. destruct p as [|y [|z p']]; [congruence|discriminate|discriminate]. }
      assert (Hk : match k with
                   | TStruct n false _ | TEnum n | TConst n _ =>
                       exists text v, child_ref fuel fp false p k = Ok [(n, text)] /\ evals false I sizes locals g text (Ok v) /\
                         match k with TConst _ c => exists d vs, obj_den (cc_value c) d vs /\ is_value sizes fp (text_type (cc_opts c)) d vs (cc_type c) v | _ => True end
                   | _ => child_ref fuel fp false p k = Ok []
                   end).
      { destruct k as [n [] ks|n|n c|n|n]; try reflexivity.
        - eexists _, (VCls (CUser (here (p ++ [n])))). split; [reflexivity|]. split; [|exact Logic.I]. apply denotes_evals, denotes_c_d, name_denotes.
          + rewrite pname_join. apply ident_join; [now destruct p|exact (proj2 (flats_ids _ _ Jk))].
          + apply Ln. exact (go_struct _ _ G _ _ _ _ Jk).
        - eexists _, (VEnumCls (here (p ++ [n]))). split; [reflexivity|]. split; [|exact Logic.I]. apply denotes_evals, denotes_c_d, name_denotes.
          + rewrite pname_join. apply ident_join; [now destruct p|exact (proj2 (flats_ids _ _ Jk))].
          + apply Ln. exact (go_enum _ _ G _ _ Jk).
        - destruct (const_runs done g locals locals g G eq_refl HU fuel fp raw file_opts request dopts sizes HR HD p (bound_names k1)) with (c := c)
            as (text & v & d & vs & E1 & E2 & E3 & E4).
          + intros x t X _. exact (L x X).
          + intros q n' gr' kids' _ [X|(l1 & l2 & X & Q)]; [congruence|].
            pose proof order_nodup as N. rewrite Or in N. rewrite Or in X. pose proof (split_unique _ _ _ _ _ N X) as <-. exact Q.
          + exact (proj2 HC p m gr kids k1 n c k2 J E).
          + exists text, v. cbn [child_ref]. rewrite E1. split; [reflexivity|]. split; [exact E2|]. eauto. }
      assert (Next : forall locals', (forall x, In x (map fst locals') -> In x (bound_names (k1 ++ [k]))) ->
         exists texts new, child_refs fuel fp false p k2 = Ok texts /\ body g locals' texts (Ok (new ++ locals')) /\
           map fst new = rev (bound_names k2) /\ (forall n c, In (TConst n c) k2 -> const_value new n c)).
      { intros locals' L'. apply (IH (k1 ++ [k]) locals'); [rewrite <- app_assoc; exact E|exact L']. }
      assert (Skip : child_ref fuel fp false p k = Ok [] -> (forall l, bound_names (k :: l) = bound_names l) -> (forall n c, k <> TConst n c) ->
         exists texts new, child_refs fuel fp false p (k :: k2) = Ok texts /\ body g locals texts (Ok (new ++ locals)) /\
           map fst new = rev (bound_names (k :: k2)) /\ (forall n c, In (TConst n c) (k :: k2) -> const_value new n c)).
      { intros C B NC. destruct (Next locals) as (texts & new & E1 & E2 & E3 & E4).
        { intros x X. apply L in X. unfold bound_names in *. rewrite flat_map_app. apply in_or_app. now left. }
        exists texts, new. cbn [child_refs]. rewrite C. cbn [bind]. rewrite E1. split; [reflexivity|]. split; [exact E2|].
        rewrite B. split; [exact E3|]. intros n c [X|X]; [exfalso; exact (NC n c X)|exact (E4 n c X)]. }
      assert (Bind : forall n text v, child_ref fuel fp false p k = Ok [(n, text)] -> evals false I sizes locals g text (Ok v) ->
         (forall l, bound_names (k :: l) = n :: bound_names l) ->
         (forall n' c, k = TConst n' c -> n' = n /\ exists d vs, obj_den (cc_value c) d vs /\ is_value sizes fp (text_type (cc_opts c)) d vs (cc_type c) v) ->
         exists texts new, child_refs fuel fp false p (k :: k2) = Ok texts /\ body g locals texts (Ok (new ++ locals)) /\
           map fst new = rev (bound_names (k :: k2)) /\ (forall n c, In (TConst n c) (k :: k2) -> const_value new n c)).
      { intros n text v C Ev B KC. destruct (Next ((n, v) :: locals)) as (texts & new & E1 & E2 & E3 & E4).
        { intros x [<-|X]; unfold bound_names; rewrite flat_map_app; apply in_or_app; [right|left; apply L; exact X].
          change (In n (bound_names [k])). rewrite B. now left. }
        exists ((n, text) :: texts), (new ++ [(n, v)]). cbn [child_refs]. rewrite C. cbn [bind]. rewrite E1. split; [reflexivity|].
        split; [apply (body_cons _ _ _ _ _ _ _ _ _ _ Ev); rewrite <- app_assoc; exact E2|].
        rewrite B. split; [rewrite map_app, E3; reflexivity|]. intros n' c [X|X].
        - destruct (KC n' c X) as (-> & d & vs & O & V). exists d, vs, v. split; [exact O|]. split; [exact V|]. apply in_or_app. right. now left.
        - destruct (E4 n' c X) as (d & vs & v' & O & V & Iv). exists d, vs, v'. split; [exact O|]. split; [exact V|]. apply in_or_app. now left. }
      destruct k as [n [] ks|n|n c|n|n].
      + apply Skip; [exact Hk|reflexivity|discriminate].
      + destruct Hk as (text & v & A & B & _). apply (Bind n text v A B); [reflexivity|discriminate].
      + destruct Hk as (text & v & A & B & _). apply (Bind n text v A B); [reflexivity|discriminate].
      + destruct Hk as (text & v & A & B & D). apply (Bind n text v A B); [reflexivity|]. intros n' c' X. injection X as <- <-. auto.
      + apply Skip; [exact Hk|reflexivity|discriminate].
      + apply Skip; [exact Hk|reflexivity|discriminate].
  Qed.

  (** *** Definitions *)
  Definition class_done (cls : list (list str * list (str * pyv))) (q : list str) (kids : list tnode) : Prop :=
    exists ns, In (q, ns) cls /\ map fst ns = rev (bound_names kids) /\ forall n c, In (TConst n c) kids -> const_value ns n c.
  Lemma defs_struct p n gr kids : defs fuel fp false p (TStruct n gr kids) =
    do l <- all (defs fuel fp false (p ++ [n])) kids;
    do b <- child_refs fuel fp false (p ++ [n]) kids;
    Ok (l ++ [MClass (p ++ [n]) b; MBind (item_name (p ++ [n])) (BItemStruct (here (p ++ [n])))]).
  Proof.
    cbn [defs]. set (q := p ++ [n]). match goal with |- bind ?a _ = bind ?b _ => assert (E : a = b); [|now rewrite E] end.
    clearbody q. induction kids as [|k kids IH]; [reflexivity|]. cbn [all]. now rewrite <- IH.
  Qed.

  Lemma globals_more done g q n gr kids : globals_ok done g -> In (q, TStruct n gr kids) (flats nodes) ->
    globals_ok (done ++ [q]) ((item_name q, VItem (JStruct (here q))) :: g).
  Proof.
    intros G J. constructor; intros; try (right; destruct G; eauto; fail).
    - destruct H as [H|H]; [injection H as <- <-; exact (gb_istruct q n gr kids J)|exact (go_all _ _ G _ _ H)].
    - apply in_app_or in H as [H|[<-|[]]]; [right; exact (go_item _ _ G _ H)|now left].
  Qed.

  Definition defs_spec (done : list (list str)) (es : list (list str * tnode)) (ps : list (list str)) (res : res (list mstmt)) : Prop :=
    forall g cs, globals_ok done g -> exists stmts new cls, res = Ok stmts /\
      steps (mkmstate g cs) stmts (mkmstate (new ++ g) (cls ++ cs)) /\ globals_ok (done ++ ps) (new ++ g) /\
      map fst cls = rev ps /\ (forall q n gr kids, In (q, TStruct n gr kids) es -> class_done cls q kids).

  Lemma class_done_app a b q kids : class_done a q kids \/ class_done b q kids -> class_done (a ++ b) q kids.
  Proof. intros [(ns & J & X)|(ns & J & X)]; exists ns; (split; [apply in_or_app; auto|exact X]). Qed.

  Lemma defs_all_run p l : forall done rest, order nodes = done ++ flat_map (posts p) l ++ rest ->
    (forall e, In e (flat_map (flat p) l) -> In e (flats nodes)) ->
    (forall t, In t l -> forall done rest, order nodes = done ++ posts p t ++ rest ->
       (forall e, In e (flat p t) -> In e (flats nodes)) -> defs_spec done (flat p t) (posts p t) (defs fuel fp false p t)) ->
    defs_spec done (flat_map (flat p) l) (flat_map (posts p) l) (all (defs fuel fp false p) l).
  Proof.
    induction l as [|t l IH]; intros done rest Or S H g cs G.
    - exists [], [], []. split; [reflexivity|]. split; [now intros r0 r R|]. cbn [flat_map app]. rewrite app_nil_r.
      split; [exact G|]. split; [reflexivity|]. intros q n gr kids [].
    - cbn [flat_map] in *. destruct (H t (or_introl eq_refl) done (flat_map (posts p) l ++ rest)) with (g := g) (cs := cs)
        as (s1 & n1 & c1 & E1 & R1 & G1 & M1 & D1).
      { rewrite Or. now rewrite <- !app_assoc. } { intros e He. apply S, in_or_app. now left. } { exact G. }
      destruct (IH (done ++ posts p t) rest) with (g := n1 ++ g) (cs := c1 ++ cs) as (s2 & n2 & c2 & E2 & R2 & G2 & M2 & D2).
      { rewrite Or. now rewrite <- !app_assoc. } { intros e He. apply S, in_or_app. now right. }
      { intros x Hx. apply (H x). now right. } { exact G1. }
      exists (s1 ++ s2), (n2 ++ n1), (c2 ++ c1). split; [cbn [all]; rewrite E1; cbn [bind]; rewrite E2; reflexivity|].
      rewrite <- !app_assoc in *. split; [exact (steps_app _ _ _ _ _ R1 R2)|]. split; [exact G2|].
      split; [rewrite map_app, M1, M2, rev_app_distr; reflexivity|].
      intros q n gr kids J. apply class_done_app. apply in_app_or in J as [J|J]; [right; exact (D1 _ _ _ _ J)|left; exact (D2 _ _ _ _ J)].
  Qed.
  Lemma defs_run t : forall p done rest, order nodes = done ++ posts p t ++ rest -> (forall e, In e (flat p t) -> In e (flats nodes)) ->
    defs_spec done (flat p t) (posts p t) (defs fuel fp false p t).
  Proof.
    induction t as [n gr kids IH|n|n c|n|n] using tnode_all_ind; intros p done rest Or S.
    2-5: intros g cs G; exists [], [], []; (split; [reflexivity|]); (split; [now intros r0 r R|]); cbn [posts app]; rewrite app_nil_r;
         (split; [exact G|]); (split; [reflexivity|]); intros q n' gr kids J; cbn [flat In] in J; destruct J as [J|[]]; discriminate.
    set (q := p ++ [n]). assert (J : In (q, TStruct n gr kids) (flats nodes)) by (apply S; left; reflexivity).
    cbn [posts] in Or. fold q in Or. intros g cs G.
    destruct (defs_all_run q kids done (q :: rest)) with (g := g) (cs := cs) as (s1 & n1 & c1 & E1 & R1 & G1 & M1 & D1).
    { rewrite Or. now rewrite <- !app_assoc. } { intros e He. apply S. cbn [flat]. right. exact He. }
    { intros t Ht done' rest' Or' S'. exact (IH t Ht q done' rest' Or' S'). } { exact G. }
    destruct (body_runs (done ++ flat_map (posts q) kids) (n1 ++ g) q n gr kids G1 J) with (k2 := kids) (k1 := @nil tnode) (locals := @nil (str * pyv))
      as (texts & ns & E2 & B2 & K2 & V2).
    { exists rest. rewrite Or. now rewrite <- !app_assoc. } { reflexivity. } { intros x []. }
    rewrite app_nil_r in B2.
    exists (s1 ++ [MClass q texts; MBind (item_name q) (BItemStruct (here q))]), ((item_name q, VItem (JStruct (here q))) :: n1), ((q, ns) :: c1).
    split; [rewrite defs_struct; fold q; rewrite E1; cbn [bind]; rewrite E2; reflexivity|].
    split; [apply (steps_app _ _ _ _ _ R1); intros r0 r X; cbn [app]; apply (run_class _ _ _ _ _ _ _ _ _ _ B2), run_bind; exact X|].
    cbn [posts]. fold q. split; [cbn [app]; rewrite app_assoc; exact (globals_more _ _ q n gr kids G1 J)|].
    split; [cbn [map fst]; rewrite M1, rev_app_distr; reflexivity|].
    intros q' n' gr' kids' X. cbn [flat tname] in X. destruct X as [X|X].
    - injection X as <- <- <- <-. exists ns. split; [now left|]. auto.
    - destruct (D1 q' n' gr' kids' X) as (ns' & A & B). exists ns'. split; [now right|exact B].
  Qed.

  (** *** The constants of the file *)
  Definition top_names (l : list tnode) : list str := flat_map (fun t => match t with TConst n _ => [n] | _ => [] end) l.
  Lemma tops_run g cs : globals_ok (order nodes) g ->
    forall l2 l1 cg, nodes = l1 ++ l2 -> (forall x, In x (map fst cg) -> exists c, In (TConst x c) l1) ->
    exists stmts new, all (top_ref fuel fp false) l2 = Ok stmts /\ steps (mkmstate (cg ++ g) cs) stmts (mkmstate (new ++ cg ++ g) cs) /\
      map fst new = rev (top_names l2) /\ (forall n c, In (TConst n c) l2 -> const_value new n c).
  Proof.
    intros G. induction l2 as [|t l2 IH]; intros l1 cg E L.
    - exists [], []. split; [reflexivity|]. split; [now intros r0 r R|]. split; [reflexivity|intros n c []].
    - assert (Skip : top_ref fuel fp false t = Ok [] -> (forall n c, t <> TConst n c) -> top_names (t :: l2) = top_names l2 ->
         exists stmts new, all (top_ref fuel fp false) (t :: l2) = Ok stmts /\ steps (mkmstate (cg ++ g) cs) stmts (mkmstate (new ++ cg ++ g) cs) /\
           map fst new = rev (top_names (t :: l2)) /\ (forall n c, In (TConst n c) (t :: l2) -> const_value new n c)).
      { intros T NC TN. destruct (IH (l1 ++ [t]) cg) as (stmts & new & E1 & R1 & K1 & V1).
        { rewrite <- app_assoc. exact E. } { intros x X. destruct (L x X) as (c & C). exists c. apply in_or_app. now left. }
        exists stmts, new. cbn [all]. rewrite T. cbn [bind]. rewrite E1. split; [reflexivity|]. split; [exact R1|].
        split; [rewrite TN; exact K1|].
        intros n c [X|X]; [exfalso; exact (NC n c X)|exact (V1 n c X)]. }
      destruct t as [n gr ks|n|n c|n|n]; try (apply Skip; [reflexivity|discriminate|reflexivity]).
      assert (Top : forall x c', In (TConst x c') nodes -> In ([x], TConst x c') (flats nodes)).
      { intros x c' X. apply in_flat_map. exists (TConst x c'). split; [exact X|now left]. }
      destruct (const_runs (order nodes) g cg [] (cg ++ g) G eq_refl) with (fuel := fuel) (fp := fp) (raw := raw) (file_opts := file_opts)
        (request := request) (dopts := dopts) (sizes := sizes) (p := @nil str) (before := @nil str) (c := c) as (text & v & d & vs & E1 & E2 & E3 & E4).
      { intros x X. destruct (L x X) as (c' & C').
        pose proof (fo_names _ HF _ _ (Top x c' ltac:(rewrite E; apply in_or_app; now left))) as F. inversion F as [|? ? (_ & U & _) _]. exact U. }
      { exact HR. } { exact HD. }
      { intros x t X Y. exfalso. destruct (L x X) as (c' & C').
        pose proof (Top x c' ltac:(rewrite E; apply in_or_app; now left)) as T'.
        destruct Y as [Y|Y]; pose proof (flats_fun _ _ _ T' Y); discriminate. }
      { intros q n' gr' kids' Jq _. exact (order_in _ _ _ _ Jq). }
      { apply (proj1 HC n c). rewrite E. apply in_or_app. right. now left. }
      destruct (IH (l1 ++ [TConst n c]) ((n, v) :: cg)) as (stmts & new & F1 & R1 & K1 & V1).
      { rewrite <- app_assoc. exact E. }
      { intros x [<-|X]; [exists c; apply in_or_app; right; now left|]. destruct (L x X) as (c' & C'). exists c'. apply in_or_app. now left. }
      exists (MConst n text :: stmts), (new ++ [(n, v)]). cbn [all top_ref]. rewrite E1. cbn [bind]. rewrite F1. split; [reflexivity|].
      split; [intros r0 r X; cbn [app]; apply (run_const _ _ _ _ _ _ _ _ _ _ E2); apply R1; rewrite <- app_assoc in X; exact X|].
      split.
      + rewrite map_app, K1. reflexivity.
      + intros n' c' [X|X].
        * injection X as <- <-. exists d, vs, v. split; [exact E3|]. split; [exact E4|]. apply in_or_app. right. now left.
        * destruct (V1 n' c' X) as (d' & vs' & v' & O' & V' & I'). exists d', vs', v'. split; [exact O'|]. split; [exact V'|]. apply in_or_app. now left.
  Qed.

  (** *** Distinct names *)
  Lemma NoDup_app_parts {A} (a b : list A) : NoDup (a ++ b) -> NoDup a /\ NoDup b /\ forall x, In x a -> ~ In x b.
  Proof.
    induction a as [|x a IH]; intros N; [split; [constructor|]; split; [exact N|intros x []]|]. cbn [app] in N. inversion N as [|? ? N1 N2]. subst.
    destruct (IH N2) as (A1 & A2 & A3). split; [constructor; [intros X; apply N1, in_or_app; now left|exact A1]|]. split; [exact A2|].
    intros y [<-|Y]; [intros X; apply N1, in_or_app; now right|exact (A3 y Y)].
  Qed.
  Lemma kids_nodup p kids : NoDup (map fst (flat_map (flat p) kids)) -> NoDup (map tname kids).
  Proof.
    induction kids as [|k kids IH]; cbn [flat_map map]; [constructor|]. rewrite map_app. intros N. destruct (NoDup_app_parts _ _ N) as (_ & N2 & N3).
    constructor; [|exact (IH N2)]. intros J. apply in_map_iff in J as (k' & E & J).
    apply (N3 (p ++ [tname k])); [destruct k; now left|]. rewrite <- E. apply in_map_iff. exists (p ++ [tname k'], k'). split; [reflexivity|].
    apply in_flat_map. exists k'. split; [exact J|]. destruct k'; now left.
  Qed.
  Lemma flat_map_part p t kids : In t kids -> NoDup (map fst (flat_map (flat p) kids)) -> NoDup (map fst (flat p t)).
  Proof.
    induction kids as [|k kids IH]; [contradiction|]. cbn [flat_map]. rewrite map_app. intros J N. destruct (NoDup_app_parts _ _ N) as (N1 & N2 & _).
    destruct J as [<-|J]; [exact N1|exact (IH J N2)].
  Qed.
  Lemma struct_nodup t : forall p q n gr kids, NoDup (map fst (flat p t)) -> In (q, TStruct n gr kids) (flat p t) -> NoDup (map tname kids).
  Proof.
    induction t as [n gr kids IH|n|n c|n|n] using tnode_all_ind; intros p q n' gr' kids' N J; cbn [flat] in *.
    1: { cbn [map fst] in N. inversion N as [|? ? _ N2]. subst. destruct J as [J|J].
         - injection J as _ _ _ <-. exact (kids_nodup _ _ N2).
         - apply in_flat_map in J as (k & K & J). exact (IH k K _ _ _ _ _ (flat_map_part _ _ _ K N2) J). }
    all: destruct J as [J|[]]; discriminate.
  Qed.
  Lemma structs_nodup q n gr kids : In (q, TStruct n gr kids) (flats nodes) -> NoDup (map tname kids).
  Proof.
    intros J. apply in_flat_map in J as (k & K & J). exact (struct_nodup _ _ _ _ _ _ (flat_map_part _ _ _ K (fo_distinct _ HF)) J).
  Qed.
  Lemma bound_nodup l : NoDup (map tname l) -> NoDup (bound_names l).
  Proof.
    induction l as [|k l IH]; cbn [map]; [constructor|]. intros N. inversion N as [|? ? N1 N2]. subst.
    assert (X : forall x, x = tname k -> ~ In x (bound_names l)).
    { intros x -> J. apply N1. apply bound_in in J as (k' & K & E & _). rewrite <- E. now apply in_map. }
    destruct k as [n [] ks|n|n c|n|n]; cbn [bound_names flat_map app]; try (exact (IH N2)); constructor; try (exact (IH N2)); exact (X _ eq_refl).
  Qed.
  Lemma top_nodup l : NoDup (map tname l) -> NoDup (top_names l).
  Proof.
    induction l as [|k l IH]; cbn [map]; [constructor|]. intros N. inversion N as [|? ? N1 N2]. subst.
    destruct k as [n gr ks|n|n c|n|n]; cbn [top_names flat_map app]; try (exact (IH N2)). constructor; [|exact (IH N2)].
    intros J. apply N1. apply in_flat_map in J as (k & K & J). destruct k as [| |n' c'| |]; cbn [In] in J; try contradiction.
    destruct J as [<-|[]]. apply in_map_iff. now exists (TConst n' c').
  Qed.
  Lemma assoc_nodup {A} n (l : list (str * A)) a : NoDup (map fst l) -> In (n, a) l -> assoc n l = Some a.
  Proof.
    intros N J. apply assoc_fun; [exact J|]. intros b Jb. revert N J Jb. induction l as [|(k, x) l IH]; [contradiction|]. cbn [map fst].
    intros N J Jb. inversion N as [|? ? N1 N2]. subst. destruct J as [J|J], Jb as [Jb|Jb].
    - congruence.
    - injection J as -> ->. exfalso. apply N1. apply in_map_iff. now exists (n, b).
    - injection Jb as -> ->. exfalso. apply N1. apply in_map_iff. now exists (n, a).
    - exact (IH N2 J Jb).
  Qed.

  Lemma flat_parent t : forall p q x, In (q, x) (flat p t) ->
    (q = p ++ [tname t] /\ x = t) \/ exists r m gr kids, q = r ++ [tname x] /\ In (r, TStruct m gr kids) (flat p t) /\ In x kids.
  Proof.
    induction t as [n gr kids IH|n|n c|n|n] using tnode_all_ind; intros p q x J; cbn [flat] in J.
    1: { destruct J as [J|J]; [injection J as <- <-; now left|]. right. apply in_flat_map in J as (k & K & J).
         destruct (IH k K _ _ _ J) as [(-> & ->)|(r & m & gr' & ks & E & A & B)].
         - exists (p ++ [n]), n, gr, kids. split; [reflexivity|]. split; [now left|exact K].
         - exists r, m, gr', ks. split; [exact E|]. split; [|exact B]. cbn [flat]. right. apply in_flat_map. eauto. }
    all: destruct J as [J|[]]; injection J as <- <-; now left.
  Qed.
  Lemma flats_parent q x : In (q, x) (flats nodes) ->
    (q = [tname x] /\ In x nodes) \/ exists r m gr kids, q = r ++ [tname x] /\ In (r, TStruct m gr kids) (flats nodes) /\ In x kids.
  Proof.
    intros J. apply in_flat_map in J as (t & T & J). destruct (flat_parent _ _ _ _ J) as [(-> & ->)|(r & m & gr & kids & E & A & B)]; [now left|].
    right. exists r, m, gr, kids. split; [exact E|]. split; [|exact B]. apply in_flat_map. eauto.
  Qed.

  (** *** The whole module *)
  Hypotheses (HO : include_reflection_data file_opts <> bool_notset)
             (HP : init_from_buffer (o_seg dopts) (o_off dopts) (o_ds dopts) (o_ps dopts) = Ok dopts)
             (Hrd : rd = if include_reflection_data file_opts =? 0 then None else Some (request, dopts)).

  Lemma assoc_imports m ns : assoc m I = Some ns -> assoc m (import_bindings I) = Some (VMod m).
  Proof.
    unfold import_bindings. clear HI HC. induction I as [|(k, x) J IH]; [discriminate|]. cbn [assoc map fst]. destruct (str_eqb k m) eqn:E; [|exact IH].
    apply str_eqb_spec in E as ->. reflexivity.
  Qed.
  Lemma import_in m v : In (m, v) (import_bindings I) -> v = VMod m /\ exists ns, assoc m I = Some ns.
  Proof.
    unfold import_bindings. clear HI HC. induction I as [|(k, x) J IH]; [contradiction|]. intros [E|E].
    - cbn [fst] in E. injection E as <- <-. split; [reflexivity|]. exists x. cbn [assoc]. now rewrite str_eqb_refl'.
    - destruct (IH E) as (-> & ns & A). split; [reflexivity|]. cbn [assoc]. destruct (str_eqb k m); eauto.
  Qed.
  Lemma header_assoc n v : In (n, v) (header false) -> assoc n (header false) = Some v.
  Proof.
    intros J. apply assoc_nodup; [|exact J]. unfold header. rewrite app_nil_r. cbn [map fst].
    repeat (constructor; [cbn [In]; intuition discriminate|]). constructor.
  Qed.

  Theorem module_runs : exists stmts s,
    emit_file fuel fp false request dopts file_opts nodes = Ok stmts /\ run (start false I) stmts (Ok s) /\
    (forall p n c, In (p ++ [n], TConst n c) (flats nodes) ->
       exists d vs v, obj_den (cc_value c) d vs /\ get_const s p n = Some v /\
         is_value sizes fp (text_type (cc_opts c)) d vs (cc_type c) v) /\
    assoc (lit "_reflection_data") (ms_globals s) = match rd with Some (a, b) => Some (VRefl a b) | None => None end.
  Proof.
    set (g0 := header false ++ import_bindings I).
    set (gr := match rd with Some (a, b) => [(lit "_reflection_data", VRefl a b)] | None => [] end).
    assert (St : exists s0, (do refl <- opt_bool (include_reflection_data file_opts);
                 Ok (if refl then [MReflection (declare_const (lit "_CodeGeneratorRequest") request None) (declare_const (lit "_Options") dopts None)] else [])) = Ok s0 /\
                 steps (mkmstate g0 []) s0 (mkmstate (gr ++ g0) [])).
    { unfold opt_bool. replace (include_reflection_data file_opts =? bool_notset) with false by (symmetry; lia). cbn [bind].
      unfold gr. rewrite Hrd. destruct (include_reflection_data file_opts =? 0).
      - exists []. split; [reflexivity|]. now intros r0 r R.
      - eexists. split; [reflexivity|]. intros r0 r R. cbn [app negb].
        assert (HH : header_ok false [] g0).
        { intros n v A. apply name_assoc.
          - intros X. apply header_under in A. destruct X as [-> |[-> | ->]]; cbn in A; intuition discriminate.
          - unfold g0. now rewrite assoc_app, A. }
        assert (HM : modules_ok I [] g0).
        { intros m ns A. apply name_assoc.
          - intros X. destruct (HI m ns A) as ((x & -> & _) & _). destruct X as [X|[X|X]]; discriminate X.
          - unfold g0. rewrite assoc_app. destruct (assoc m (header false)) eqn:Ah; [|exact (assoc_imports m ns A)].
            exfalso. destruct (header_split _ _ Ah) as (x & Ex). destruct (import_split m) as (l & Nl & El); [now destruct (HI m ns A)|].
            rewrite Ex in El. injection El as El. destruct l as [|a [|b l]]; [congruence|discriminate El|discriminate El]. }
        eapply (run_refl _ _ _ _ _ _ _ _ request dopts).
        + apply denotes_evals, denotes_c_d, (declare_denotes false I sizes [] g0 HH _ CRequest); [|exact (loads_init _ _ HR)|exact Logic.I].
          apply name_denotes; [reflexivity|]. now apply HH.
        + apply denotes_evals, denotes_c_d, (declare_denotes false I sizes [] g0 HH _ COptions); [|exact HP|exact Logic.I].
          apply name_denotes; [reflexivity|]. now apply HH.
        + exact R. }
    destruct St as (s0 & E0 & R0).
    destruct (decls_all_run [] nodes) with (g := gr ++ g0) (cs := @nil (list str * list (str * pyv))) as (s1 & n1 & E1 & R1 & D1).
    { intros t Ht g cs. apply decls_run. intros e He. apply in_flat_map. eauto. }
    assert (G1 : globals_ok [] (n1 ++ gr ++ g0)).
    { constructor.
      - intros n v J. apply in_app_or in J as [J|J]; [exact (ds_all _ _ _ D1 _ _ J)|]. apply in_app_or in J as [J|J].
        + unfold gr in J. destruct rd as [[a b]|] eqn:Er; [|contradiction]. destruct J as [J|[]]. injection J as <- <-. now apply gb_refl.
        + apply in_app_or in J as [J|J]; [apply gb_header; now apply header_assoc|].
          destruct (import_in n v J) as (-> & ns & A). exact (gb_import n ns A).
      - intros n v A. do 2 (apply in_or_app; right). apply in_or_app. left. now apply assoc_in.
      - intros m ns A. do 3 (apply in_or_app; right). apply assoc_in. exact (assoc_imports m ns A).
      - intros a b A. apply in_or_app; right. apply in_or_app. left. unfold gr. rewrite A. now left.
      - intros p n g' kids J. apply in_or_app. left. exact (ds_struct _ _ _ D1 _ _ _ _ J).
      - intros p n J. apply in_or_app. left. exact (ds_ienum _ _ _ D1 _ _ J).
      - intros p n J. apply in_or_app. left. exact (ds_enum _ _ _ D1 _ _ J).
      - intros p []. }
    destruct (defs_all_run [] nodes [] []) with (g := n1 ++ gr ++ g0) (cs := @nil (list str * list (str * pyv)))
      as (s2 & n2 & cls & E2 & R2 & G2 & M2 & D2).
    { cbn [app]. rewrite app_nil_r. reflexivity. } { auto. }
    { intros t Ht done rest Or S. exact (defs_run t [] done rest Or S). } { exact G1. }
    cbn [app] in G2. fold (order nodes) in G2, M2. rewrite app_nil_r in R2.
    destruct (tops_run (n2 ++ n1 ++ gr ++ g0) cls G2 nodes [] []) as (s3 & n3 & E3 & R3 & K3 & V3); [reflexivity|intros x []|]. cbn [app] in R3.
    set (s := mkmstate (n3 ++ n2 ++ n1 ++ gr ++ g0) cls) in *.
    apply bind_ok in E0. destruct E0 as (refl & Ob & E0). apply ok_inj in E0.
    exists (s0 ++ s1 ++ s2 ++ s3), s. split; [|split; [|split]].
    - unfold emit_file. rewrite Ob. cbn [bind]. rewrite E1. cbn [bind]. rewrite E2. cbn [bind]. rewrite E3. cbn [bind]. now rewrite <- E0.
    - unfold start. fold g0. rewrite <- (app_nil_r s3). apply R0, R1, R2, R3. constructor.
    - assert (Nt : NoDup (map tname nodes)) by exact (kids_nodup [] nodes (fo_distinct _ HF)).
      intros p n c J. destruct (flats_parent _ _ J) as [(E & Jn)|(r & m & gr' & kids & E & A & B)].
      + change [tname (TConst n c)] with ([] ++ [n]) in E. apply app_inj_tail in E as (-> & _).
        destruct (V3 n c Jn) as (d & vs & v & O & Vv & Iv). exists d, vs, v. split; [exact O|]. split; [|exact Vv].
        cbn [get_const ms_globals s]. unfold s. cbn [ms_globals]. rewrite assoc_app.
        rewrite (assoc_nodup n n3 v); [reflexivity| |exact Iv]. rewrite K3. apply NoDup_rev, top_nodup, Nt.
      + apply app_inj_tail in E as (-> & _).
        destruct (D2 r m gr' kids A) as (ns & In_ & Kn & Vn). destruct (Vn n c B) as (d & vs & v & O & Vv & Iv).
        exists d, vs, v. split; [exact O|]. split; [|exact Vv].
        assert (Gc : class_ns s r = Some ns).
        { unfold class_ns, s. cbn [ms_classes].
          assert (Nc : NoDup (map fst cls)) by (rewrite M2; apply NoDup_rev, order_nodup).
          clear - In_ Nc. induction cls as [|(k, x) cls IH]; [contradiction|]. cbn [map fst] in Nc. inversion Nc as [|? ? N1 N2]. subst.
          cbn [find fst]. unfold path_eqb at 1. destruct (path_eq_dec k r) as [->|Nk].
          - destruct In_ as [X|X]; [injection X as ->; reflexivity|]. exfalso. apply N1. apply in_map_iff. now exists (r, ns).
          - destruct In_ as [X|X]; [injection X as -> _; congruence|]. exact (IH X N2). }
        unfold get_const. pose proof (flats_ne _ _ A). destruct r as [|y r]; [congruence|]. rewrite Gc.
        apply assoc_nodup; [|exact Iv]. rewrite Kn. apply NoDup_rev, bound_nodup. exact (structs_nodup _ _ _ _ A).
    - unfold s. cbn [ms_globals]. rewrite assoc_app, (assoc_none _ n3).
      2: { rewrite K3. intros X. apply in_rev in X. apply in_flat_map in X as (t & T & X). destruct t as [| |n c| |]; cbn [In] in X; try contradiction.
           destruct X as [-> |[]]. assert (Jt : In ([lit "_reflection_data"], TConst (lit "_reflection_data") c) (flats nodes)) by (apply in_flat_map; eexists; split; [exact T|now left]).
           pose proof (fo_names _ HF _ _ Jt) as F. inversion F as [|? ? (_ & U & _) _]. apply U. now left. }
      destruct rd as [[a b]|] eqn:Er.
      + apply assoc_fun; [exact (go_refl _ _ G2 a b Er)|]. intros x Jx. apply (gbind_fun (lit "_reflection_data")); [exact (go_all _ _ G2 _ _ Jx)|now apply gb_refl].
      + destruct (assoc _ _) as [x|] eqn:Ea; [|reflexivity]. exfalso. apply assoc_in in Ea. apply (go_all _ _ G2) in Ea.
        destruct (gbind_shape _ _ Ea) as (l & S). pose proof (shape_split _ _ _ S) as Sp. change (Loader.split underscore (lit "_reflection_data")) with [[]; lit "reflection"; lit "data"] in Sp. subst l.
        inversion S as [n2' v2 x2 A2 B2 F1 F2 F3|m2 ns2 l2 A2 Nl2 B2 F1 F2 F3|a2 b2 Rd F1 F2 F3|p2 x2 v2 J2 V2 F1 F2 F3|p2 x2 v2 J2 V2 F1 F2 F3].
        * apply (capnp_tail l2 [lit "reflection"] (lit "data") ltac:(discriminate)). exact F3.
        * congruence.
        * subst p2. apply (flats_no_empty _ _ J2). now left.
        * apply (f_equal (@List.length _)) in F3. rewrite app_length in F3. cbn in F3. pose proof (flats_ne _ _ J2). destruct p2; [congruence|]. cbn in F3. lia.
  Qed.
End module.
