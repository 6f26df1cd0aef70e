(** C61-C63: the constants of a generated module, the item types of its lists
    and its reflection data, from the text capnpy writes to the objects
    Python makes of it. *)
From Coq Require Import Strings.String.
From Verif Require Import Base BaseFacts Spec SegSpec Enc Ptr Segment Builder Struct List Query Message Case CaseFacts Options Loader Names NamesFacts
  Repr ReprSpec ReprFacts StructFacts ReadFacts ObjFacts AlignFacts CopyList Ctor CtorProps Samples Properties_Repr PyExpr PyExprFacts Const ConstSpec ConstFacts ConstModule.
From Coq Require Import Lists.List.
Local Notation length := Datatypes.length.

(** ** Executing a module has one outcome *)
Section outcome.
  Variables (pyx : bool) (I : imports) (sizes : cref -> Z * Z).
  Lemma body_fun g l ns r : body pyx I sizes g ns l r -> forall r', body pyx I sizes g ns l r' -> r = r'.
  Proof.
    intros B. induction B as [locals|locals n text rest v r E B IH|locals n text rest e E]; intros r' B'; inversion B' as [|? ? ? ? w ? X B''|? ? ? ? w X]; subst; try reflexivity.
    - pose proof (evals_fun _ _ _ _ _ _ _ _ E X) as Q. apply ok_inj in Q. subst. now apply IH.
    - pose proof (evals_fun _ _ _ _ _ _ _ _ E X) as Q. discriminate Q.
    - pose proof (evals_fun _ _ _ _ _ _ _ _ E X) as Q. discriminate Q.
    - pose proof (evals_fun _ _ _ _ _ _ _ _ E X) as Q. injection Q as ->. reflexivity.
  Qed.
  Ltac evs := repeat match goal with
    | E : evals ?a ?b ?c ?d ?e ?t ?x, X : evals ?a ?b ?c ?d ?e ?t ?y |- _ =>
        pose proof (evals_fun _ _ _ _ _ _ _ _ E X); clear X
    | E : body ?a ?b ?c ?d ?e ?t ?x, X : body ?a ?b ?c ?d ?e ?t ?y |- _ => pose proof (body_fun _ _ _ _ E _ X); clear X
    end.
  Lemma run_fun s l r : run pyx I sizes s l r -> forall r', run pyx I sizes s l r' -> r = r'.
  Proof.
    intros R. induction R; intros r' R'; inversion R'; subst; evs; try discriminate; try reflexivity; auto;
      repeat match goal with H : Ok _ = Ok _ |- _ => injection H as H; subst end;
      repeat match goal with H : Err _ = Err _ |- _ => injection H as H; subst end; subst; auto.
  Qed.
End outcome.

(** ** C61: constants *)

(** Names can be used where [locals] and [globals] are those of a point of a
    generated module: nothing hides what its header and imports bind. *)
Definition in_module (pyx : bool) (I : imports) (locals globals : list (str * pyv)) : Prop :=
  imports_ok I /\
  (forall n v, assoc n (header pyx) = Some v -> name locals globals n = Ok v) /\
  (forall m ns, assoc m I = Some ns -> name locals globals m = Ok (VMod m)).

(** A file without Cython: whatever its declarations, nested to any depth,
    the module is generated, executed without error, and gives every constant
    its value; nothing else can happen. *)
Theorem C61_constants_of_a_file I nodes fuel fp raw file_opts request dopts dd dvs sizes :
  imports_ok I -> file_ok nodes -> loads raw = Ok (Some request) -> obj_den dopts dd dvs ->
  include_reflection_data file_opts <> bool_notset ->
  consts_ok fuel fp I raw file_opts nodes ->
  exists stmts s, emit_file fuel fp false request dopts file_opts nodes = Ok stmts /\
    (forall r, run false I sizes (start false I) stmts r <-> r = Ok s) /\
    forall p n c, In (p ++ [n], TConst n c) (flats nodes) ->
      exists d vs v, obj_den (cc_value c) d vs /\ get_const s p n = Some v /\
        is_value sizes fp (text_type (cc_opts c)) d vs (cc_type c) v.
Proof.
  intros HI HF HR HD HO HC.
  destruct (module_runs I nodes (if include_reflection_data file_opts =? 0 then None else Some (request, dopts)) HI HF fuel fp raw file_opts request dopts sizes HR)
    as (stmts & s & E & R & V & _); try assumption; try reflexivity.
  - intros (N1 & N2). now replace (include_reflection_data file_opts =? 0) with false by (symmetry; lia).
  - exact (init_ok _ _ _ HD).
  - exists stmts, s. split; [exact E|]. split; [|exact V]. intros r. split; [intros R'; exact (eq_sym (run_fun _ _ _ _ _ _ R _ R'))|now intros ->].
Qed.

(** One constant, at any point of a module where the names it needs are
    bound, with Cython or without. *)
Theorem C61_constant pyx I locals globals fuel raw fp c d vs sizes :
  in_module pyx I locals globals -> obj_den (cc_value c) d vs -> carries fp d vs (cc_type c) ->
  match cc_type c with
  | SStruct r =>
      class_visible I locals globals r /\
      (on (cc_opts c) /\ reflection_visible locals globals (o_seg (cc_value c)) \/
       off (cc_opts c) /\ compact_fits fuel raw (cc_value c) (v_ptr vs 0))
  | SList t =>
      on (cc_opts c) /\ reflection_visible locals globals (o_seg (cc_value c)) /\
      items_visible pyx I locals globals t /\ item_of (text_type (cc_opts c)) t <> None
  | _ => True
  end ->
  exists text v, emit_const fuel fp pyx c = Ok text /\
    (forall r, evals pyx I sizes locals globals text r <-> r = Ok v) /\
    is_value sizes fp (text_type (cc_opts c)) d vs (cc_type c) v.
Proof.
  intros (HI & HH & HM) O K U. destruct (const_evals pyx I sizes locals globals HH HM HI fuel raw fp c d vs O K U) as (text & v & E & X & V).
  exists text, v. split; [exact E|]. split; [|exact V]. intros r. split; [intros X'; exact (evals_fun _ _ _ _ _ _ _ _ X' X)|now intros ->].
Qed.

(** *** What does not work *)

(** A list constant needs the reflection data. *)
Theorem C61_list_without_reflection_refuted fuel fp pyx c t :
  cc_type c = SList t -> off (cc_opts c) -> emit_const fuel fp pyx c = Err NotImplementedError.
Proof. intros T N. unfold emit_const. rewrite T, N. reflexivity. Qed.

(** A float which is not finite is written inf or nan, which Python takes for
    the name of a variable. *)
Definition unbound (locals globals : list (str * pyv)) (n : str) : Prop := assoc n locals = None /\ assoc n globals = None.
Theorem C61_infinity_refuted pyx I locals globals fuel fp c d vs sizes t :
  obj_den (cc_value c) d vs -> cc_type c = SFloat64 -> v_prim d 0 Fh = 11 ->
  fp64 fp (v_prim d 8 FQ) = t -> In t [lit "inf"; lit "-inf"; lit "nan"] ->
  unbound locals globals (lit "inf") -> unbound locals globals (lit "nan") ->
  exists text, emit_const fuel fp pyx c = Ok text /\ evals pyx I sizes locals globals text (Err NameError).
Proof.
  intros O T Tag P J (U1 & U2) (U3 & U4). exists t. unfold emit_const. rewrite T.
  rewrite (pyobj_field (cc_value c) d vs SFloat64 11%nat (FSlot EmptyString 0 (Some 11) TFloat64 1 false 0) O Tag eq_refl eq_refl ltac:(lia) eq_refl).
  cbn [read_slot]. rewrite (o_read_primitive_spec _ d vs (1 * 8) FQ O ltac:(lia) eq_refl). cbn [bind]. change (float_zero 63 0) with true. cbn [bind py_repr negb Z.eqb Z.mul Pos.mul].
  split; [now rewrite P|].
  assert (X : forall n, unbound locals globals n -> ident n = true -> ~ reserved n ->
              wf (EName n) /\ eval (python pyx I sizes locals globals) (EName n) = Err NameError).
  { intros n (A & B) In_ Nr. split; [now constructor|]. cbn [eval python i_name]. unfold name. rewrite A, B.
    destruct (str_eqb n (lit "True")) eqn:E1; [exfalso; apply Nr; left; now apply str_eqb_spec|].
    destruct (str_eqb n (lit "False")) eqn:E2; [exfalso; apply Nr; right; left; now apply str_eqb_spec|].
    destruct (str_eqb n (lit "None")) eqn:E3; [exfalso; apply Nr; right; right; now apply str_eqb_spec|]. reflexivity. }
  destruct (X (lit "inf")) as (W1 & E1); [split; assumption|reflexivity|intros [?|[?|?]]; discriminate|].
  destruct (X (lit "nan")) as (W2 & E2); [split; assumption|reflexivity|intros [?|[?|?]]; discriminate|].
  destruct J as [<-|[<-|[<-|[]]]].
  - now apply (raises _ _ _ _ _ _ (EName (lit "inf"))).
  - apply (raises _ _ _ _ _ _ (ENeg (EName (lit "inf")))); [reflexivity|now constructor|]. cbn [eval] in *. now rewrite E1.
  - now apply (raises _ _ _ _ _ _ (EName (lit "nan"))).
Qed.

(** A constant in a struct which asks for the reflection data, when the file
    has none: the module cannot be imported. *)
Lemma err_attr pyx I sizes locals globals e n x : eval (python pyx I sizes locals globals) e = Err x ->
  eval (python pyx I sizes locals globals) (EAttr e n) = Err x.
Proof. intros E. cbn [eval]. now rewrite E. Qed.

Theorem C61_no_reflection_refuted pyx I locals globals fuel fp c d vs sizes r :
  in_module pyx I locals globals -> obj_den (cc_value c) d vs -> carries fp d vs (cc_type c) ->
  cc_type c = SStruct r -> class_visible I locals globals r -> on (cc_opts c) -> unbound locals globals (lit "_reflection_data") ->
  exists text, emit_const fuel fp pyx c = Ok text /\ evals pyx I sizes locals globals text (Err NameError).
Proof.
  intros (HI & HH & HM) O K T V (N1 & N2) (U1 & U2).
  rewrite T in K. destruct K as (Tag & sd & svs & K).
  unfold emit_const. rewrite T. unfold value_field.
  change (nth_error val_fields 16) with (Some (FSlot EmptyString 0 (Some 16) TAny 0 false 0)). cbn [get_slot].
  rewrite (tag_ensure _ d vs (SStruct r) _ O Tag) by reflexivity. cbn [bind read_slot]. rewrite (has_spec _ d vs 0 O ltac:(lia)), K.
  cbn [bind]. change (0 * 8) with (8 * 0).
  pose proof (o_read_struct_spec _ d vs 0 O ltac:(lia)) as X. rewrite K in X. destruct X as (s & Es & Os & Ss). rewrite Es. cbn [bind].
  unfold opt_bool. replace (include_reflection_data (cc_opts c) =? bool_notset) with false by (symmetry; lia).
  replace (include_reflection_data (cc_opts c) =? 0) with false by (symmetry; lia). cbn [bind negb].
  eexists. split; [reflexivity|].
  destruct (class_denotes pyx I sizes locals globals HM HI r V) as (ec & Sc & Wc & Cc & Ec).
  destruct (int_denotes pyx I sizes locals globals (o_off s)) as (e1 & S1 & W1 & E1).
  destruct (int_denotes pyx I sizes locals globals (o_ds s)) as (e2 & S2 & W2 & E2).
  destruct (int_denotes pyx I sizes locals globals (o_ps s)) as (e3 & S3 & W3 & E3).
  set (er := EAttr (EAttr (EName (lit "_reflection_data")) (lit "request")) (lit "_seg")).
  apply (raises _ _ _ _ _ _ (ECall (EAttr ec (lit "from_buffer")) [er; e1; e2; e3])).
  - cbn [show map join_with]. fold show. rewrite Sc, S1, S2, S3. unfold declare_const. rewrite <- !app_assoc. reflexivity.
  - constructor; [constructor; [exact Wc|exact Cc|reflexivity]|reflexivity|].
    intros x [<-|[<-|[<-|[<-|[]]]]]; try assumption.
    constructor; [constructor; [constructor; reflexivity|reflexivity|reflexivity]|reflexivity|reflexivity].
  - assert (Er : eval (python pyx I sizes locals globals) er = Err NameError).
    { apply err_attr, err_attr. cbn [eval python i_name]. unfold name. rewrite U1, U2. reflexivity. }
    cbn [eval]. fold (eval (python pyx I sizes locals globals)). rewrite Ec. cbn [bind python i_attr]. fold (python pyx I sizes locals globals).
    cbn [attr]. rewrite str_eqb_refl'. cbn [bind]. fold (python pyx I sizes locals globals). rewrite Er. reflexivity.
Qed.

(** A list constant of the item type of a struct of the file that is not
    bound yet. *)
Theorem C61_later_struct_refuted pyx I locals globals fuel fp c d vs sizes r :
  in_module pyx I locals globals -> obj_den (cc_value c) d vs -> carries fp d vs (cc_type c) ->
  cc_type c = SList (SStruct r) -> cr_file r = None -> cr_path r <> [] -> Forall (fun n => ident n = true) (cr_path r) ->
  unbound locals globals (item_name (cr_path r)) -> on (cc_opts c) ->
  reflection_visible locals globals (o_seg (cc_value c)) ->
  exists text, emit_const fuel fp pyx c = Ok text /\ evals pyx I sizes locals globals text (Err NameError).
Proof.
  intros (HI & HH & HM) O K T F Np Fp (U1 & U2) (N1 & N2) R.
  rewrite T in K. destruct K as (Tag & K).
  unfold emit_const. rewrite T. unfold opt_bool. replace (include_reflection_data (cc_opts c) =? bool_notset) with false by (symmetry; lia).
  replace (include_reflection_data (cc_opts c) =? 0) with false by (symmetry; lia). cbn [bind negb]. unfold value_field.
  change (nth_error val_fields 14) with (Some (FSlot EmptyString 0 (Some 14) TAny 0 false 0)). cbn [get_slot].
  rewrite (tag_ensure _ d vs (SList (SStruct r)) _ O Tag) by reflexivity. cbn [bind read_slot]. rewrite (has_spec _ d vs 0 O ltac:(lia)).
  assert (Nv : v_ptr vs 0 <> VNull) by (destruct (v_ptr vs 0); congruence || contradiction).
  replace (match v_ptr vs 0 with VNull => false | _ => true end) with true by (destruct (v_ptr vs 0); congruence).
  pose proof (o_read_list_spec _ d vs 0 ITVoid O ltac:(lia)) as X.
  assert (X' : exists l, o_read_list (cc_value c) (8 * 0) ITVoid = Ok (Some l)).
  { destruct (v_ptr vs 0); try contradiction; destruct X as (l & X1 & _); eauto. }
  destruct X' as (l & El). cbn [bind]. change (0 * 8) with (8 * 0). rewrite El. cbn [bind].
  destruct r as [rf p]. cbn [cr_file cr_path] in *. subst rf.
  assert (It : list_item_type pyx (text_type (cc_opts c)) (SStruct (mkcref None p)) = Ok (item_name p)).
  { unfold list_item_type. cbn [is_builtin is_imported cr_file]. unfold item_name, pname, cname, here. cbn [cr_file cr_path app].
    destruct pyx; [|]; rewrite <- ?app_assoc; reflexivity. }
  rewrite It. cbn [bind]. eexists. split; [reflexivity|].
  destruct (refl_denotes pyx I sizes locals globals _ R) as (er & Sr & Wr & Cr & Er).
  destruct (int_denotes pyx I sizes locals globals (l_off l)) as (e1 & S1 & W1 & E1).
  destruct (int_denotes pyx I sizes locals globals (l_stag l)) as (e2 & S2 & W2 & E2).
  destruct (int_denotes pyx I sizes locals globals (l_count l)) as (e3 & S3 & W3 & E3).
  apply (raises _ _ _ _ _ _ (ECall (EAttr (EName (lit "_List")) (lit "from_buffer")) [er; e1; e2; e3; EName (item_name p)])).
  - cbn [show map join_with]. fold show. rewrite Sr, S1, S2, S3. rewrite <- !app_assoc. reflexivity.
  - constructor; [constructor; [constructor; reflexivity|reflexivity|reflexivity]|reflexivity|].
    intros x [<-|[<-|[<-|[<-|[<-|[]]]]]]; try assumption. constructor. now apply ident_item.
  - assert (Ei : eval (python pyx I sizes locals globals) (EName (item_name p)) = Err NameError).
    { cbn [eval python i_name]. unfold name. rewrite U1, U2. reflexivity. }
    assert (Ef : eval (python pyx I sizes locals globals) (EAttr (EName (lit "_List")) (lit "from_buffer")) = Ok VListFromBuffer).
    { cbn [eval python i_name i_attr]. rewrite (HH (lit "_List") VListCls); [reflexivity|]. destruct pyx; reflexivity. }
    change (eval (python pyx I sizes locals globals) (ECall (EAttr (EName (lit "_List")) (lit "from_buffer")) [er; e1; e2; e3; EName (item_name p)]))
      with (do v <- eval (python pyx I sizes locals globals) (EAttr (EName (lit "_List")) (lit "from_buffer"));
            do l0 <- eval_list pyx I sizes locals globals [er; e1; e2; e3; EName (item_name p)]; call sizes v l0).
    rewrite Ef. cbn [bind eval_list]. rewrite Er, E1, E2, E3, Ei. reflexivity.
Qed.

(** In the body of a class, the class of a struct declared on top of the file
    is looked for by its name alone: a nested declaration of that name hides
    it, and the constant is an instance of the wrong class. *)
Theorem C61_shadowed_refuted pyx I locals globals fuel fp c d vs sizes r r' x :
  in_module pyx I locals globals -> obj_den (cc_value c) d vs -> carries fp d vs (cc_type c) ->
  cc_type c = SStruct r -> cr_file r = None -> cr_path r = [x] -> ident x = true ->
  name locals globals x = Ok (VCls (CUser r')) -> r' <> r ->
  on (cc_opts c) -> reflection_visible locals globals (o_seg (cc_value c)) ->
  exists text o, emit_const fuel fp pyx c = Ok text /\ evals pyx I sizes locals globals text (Ok (VObj (CUser r') o)) /\
    ~ is_value sizes fp (text_type (cc_opts c)) d vs (cc_type c) (VObj (CUser r') o).
Proof.
  intros (HI & HH & HM) O K T F P Ix Nx D (N1 & N2) R.
  rewrite T in K. destruct K as (Tag & sd & svs & K).
  unfold emit_const. rewrite T. unfold value_field.
  change (nth_error val_fields 16) with (Some (FSlot EmptyString 0 (Some 16) TAny 0 false 0)). cbn [get_slot].
  rewrite (tag_ensure _ d vs (SStruct r) _ O Tag) by reflexivity. cbn [bind read_slot]. rewrite (has_spec _ d vs 0 O ltac:(lia)), K.
  cbn [bind]. change (0 * 8) with (8 * 0).
  pose proof (o_read_struct_spec _ d vs 0 O ltac:(lia)) as X. rewrite K in X. destruct X as (s & Es & Os & Ss). rewrite Es. cbn [bind].
  unfold opt_bool. replace (include_reflection_data (cc_opts c) =? bool_notset) with false by (symmetry; lia).
  replace (include_reflection_data (cc_opts c) =? 0) with false by (symmetry; lia). cbn [bind negb].
  eexists _, s. split; [reflexivity|]. split.
  - apply denotes_evals, denotes_c_d. apply declare_denotes; [exact HH| |exact (init_ok _ _ _ Os)|].
    + unfold cname. rewrite F, P. cbn [sep_join app]. now apply name_denotes.
    + rewrite Ss. now apply refl_denotes.
  - intros V. inversion V. congruence.
Qed.

(** An interface anywhere in the file: nothing is generated. *)
Lemma decls_all_err p l : (forall t, In t l -> (exists r, decls p t = Ok r) \/ decls p t = Err AssertionError) ->
  ((exists r, all (decls p) l = Ok r) \/ all (decls p) l = Err AssertionError) /\
  ((exists t, In t l /\ decls p t = Err AssertionError) -> all (decls p) l = Err AssertionError).
Proof.
  induction l as [|t l IH]; intros H; cbn [all]; [split; [eauto|]; intros (t & [] & _)|].
  destruct IH as (IH1 & IH2); [intros; apply H; now right|].
  destruct (H t (or_introl eq_refl)) as [(r & E)|E]; rewrite E; cbn [bind]; [|split; auto].
  split.
  - destruct IH1 as [(r' & ->)| ->]; cbn [bind]; eauto.
  - intros (t' & [<-|J] & E'); [congruence|]. rewrite IH2 by eauto. reflexivity.
Qed.
Lemma decls_err t : forall p, ((exists r, decls p t = Ok r) \/ decls p t = Err AssertionError) /\
  ((exists q n, In (q, TOther n) (flat p t)) -> decls p t = Err AssertionError).
Proof.
  induction t as [n g kids IH|n|n c|n|n] using tnode_all_ind; intros p.
  2-4: (split; [left; eexists; reflexivity|]; intros (q & m & [E|[]]); discriminate E).
  - rewrite decls_struct.
    destruct (decls_all_err (p ++ [n]) kids) as (A & B); [intros t J; exact (proj1 (IH t J _))|].
    split; [destruct A as [(r & ->)| ->]; cbn [bind]; eauto|].
    intros (q & m & [E|J]); [discriminate E|]. apply in_flat_map in J as (t & Jt & J).
    rewrite B; [reflexivity|]. exists t. split; [exact Jt|]. apply (IH t Jt). eauto.
  - split; [now right|reflexivity].
Qed.
Theorem C61_interface_refuted fuel fp pyx request dopts file_opts nodes q n :
  include_reflection_data file_opts <> bool_notset -> In (q, TOther n) (flats nodes) ->
  emit_file fuel fp pyx request dopts file_opts nodes = Err AssertionError.
Proof.
  intros N J. unfold emit_file, opt_bool. replace (include_reflection_data file_opts =? bool_notset) with false by (symmetry; lia). cbn [bind].
  apply in_flat_map in J as (t & Jt & J).
  rewrite (proj2 (decls_all_err [] nodes (fun t _ => proj1 (decls_err t [])))); [reflexivity|].
  exists t. split; [exact Jt|]. apply decls_err. eauto.
Qed.

(** ** C62: the item type of a list *)

Theorem C62_item_type pyx I locals globals tt t j sizes :
  in_module pyx I locals globals -> items_visible pyx I locals globals t -> item_of tt t = Some j ->
  exists text, list_item_type pyx tt t = Ok text /\
    forall r, evals pyx I sizes locals globals text r <-> r = Ok (VItem j).
Proof.
  intros (HI & HH & HM) V E. destruct (item_type_denotes pyx I sizes locals globals HH HM HI tt t j E V) as (text & L & D).
  exists text. split; [exact L|]. assert (X : evals pyx I sizes locals globals text (Ok (VItem j))) by (now apply denotes_evals, denotes_c_d).
  intros r. split; [intros X'; exact (evals_fun _ _ _ _ _ _ _ _ X' X)|now intros ->].
Qed.

(** Lists that have no item type are refused when the module is generated
    (without Cython). *)
Theorem C62_no_item_type tt t : item_of tt t = None -> list_item_type false tt t = Err NotImplementedError.
Proof.
  induction t as [| |f| | | | |t IH|r|r| |]; cbn [item_of list_item_type]; intros E; try discriminate E; try reflexivity.
  - unfold tt_bytes, tt_unicode. destruct (tt =? 1); [discriminate|]. destruct (tt =? 2); [discriminate|]. reflexivity.
  - rewrite IH; [reflexivity|]. destruct (item_of tt t); [discriminate|reflexivity].
Qed.

(** Without Cython, a struct or enum nested in a declaration of an imported
    file: the text of the item type does not name it, and the module cannot
    be imported. *)
Fixpoint chain (e : expr) (l : list str) : expr := match l with [] => e | n :: r => chain (EAttr e n) r end.
Lemma chain_spec l : forall e, wf e -> callable e = true -> Forall (fun n => ident n = true) l ->
  wf (chain e l) /\ show (chain e l) = show e ++ concat (map (fun n => [46] ++ n) l) /\
  forall pyx I sizes locals globals x, eval (python pyx I sizes locals globals) e = Err x -> eval (python pyx I sizes locals globals) (chain e l) = Err x.
Proof.
  induction l as [|n l IH]; intros e W C F; cbn [chain map concat].
  - rewrite app_nil_r. auto.
  - inversion F as [|? ? F1 F2]. subst. destruct (IH (EAttr e n)) as (A & B & D); [now constructor|reflexivity|exact F2|].
    split; [exact A|]. split; [rewrite B; cbn [show]; now rewrite <- !app_assoc|]. intros pyx I sizes locals globals x E. apply D. now apply err_attr.
Qed.
Lemma under_ident x : ident x = true -> ident (lit "_" ++ x) = true.
Proof. intros H. apply ident_cons_under. exact (ident_chars _ H). Qed.
Lemma sep_join_chain a p : sep_join (lit "." ++ lit "_") (a :: p) = a ++ concat (map (fun n => [46] ++ n) (map (fun n => lit "_" ++ n) p)).
Proof.
  revert a. induction p as [|x p IH]; intros a; [cbn [sep_join map concat]; now rewrite app_nil_r|].
  change (sep_join (lit "." ++ lit "_") (a :: x :: p)) with (a ++ (lit "." ++ lit "_") ++ sep_join (lit "." ++ lit "_") (x :: p)).
  rewrite IH. cbn [map concat]. rewrite <- !app_assoc. reflexivity.
Qed.

Theorem C62_nested_import_refuted I locals globals tt t m p ns sizes :
  in_module false I locals globals -> t = SStruct (mkcref (Some m) p) \/ t = SEnum (mkcref (Some m) p) ->
  assoc m I = Some ns -> (exists d, In d ns /\ nd_path d = p) -> (2 <= length p)%nat ->
  exists text, list_item_type false tt t = Ok text /\ forall r, evals false I sizes locals globals text r <-> r = Err AttributeError.
Proof.
  intros (HI & HH & HM) T A (d & Jd & Pd) Lp. destruct (HI m ns A) as ((x0 & Em & Im) & C & Top & Id).
  assert (Fp : Forall (fun n => ident n = true) p) by (apply Forall_forall; intros n Jn; apply (Id d n Jd); now rewrite Pd).
  destruct (cf_ids _ C d Jd) as (_ & Cp). rewrite Pd in Cp.
  destruct p as [|a [|b p]]; cbn in Lp; try lia.
  inversion Fp as [|? ? Ia Fp']. inversion Cp as [|? ? Ca Cp']. subst.
  set (m := lit "_" ++ x0 ++ lit "_capnp") in *.
  assert (Lt : exists text, list_item_type false tt t = Ok text /\ text = cname (mkcref (Some m) (a :: b :: p)) (lit "_") ++ lit "_list_item_type")
    by (destruct T as [-> | ->]; eexists; split; reflexivity).
  destruct Lt as (text & Lt & Et). exists text. split; [exact Lt|].
  assert (X : evals false I sizes locals globals text (Err AttributeError)).
  { set (names := map (fun n => lit "_" ++ n) (b :: p)).
    assert (Sp : exists l' last, names = l' ++ [last]) by (destruct (exists_last (l := names)) as (l' & z & E); [discriminate|eauto]).
    destruct Sp as (l' & last & El).
    assert (Fn : Forall (fun n => ident n = true) names).
    { unfold names. apply Forall_map. eapply Forall_impl; [|exact Fp']. intros n Hn. now apply under_ident. }
    assert (Fn' : Forall (fun n => ident n = true) (l' ++ [last ++ lit "_list_item_type"])).
    { rewrite El in Fn. apply Forall_app in Fn as (Fl & Fz). apply Forall_app. split; [exact Fl|]. constructor; [|constructor].
      apply ident_app; [now inversion Fz|reflexivity]. }
    set (e0 := EAttr (EName m) (lit "_" ++ a)).
    assert (W0 : wf e0) by (constructor; [constructor; exact Im|reflexivity|now apply under_ident]).
    destruct (chain_spec (l' ++ [last ++ lit "_list_item_type"]) e0 W0 eq_refl Fn') as (Wc & Sc & Ev).
    apply (raises _ _ _ _ _ _ (chain e0 (l' ++ [last ++ lit "_list_item_type"]))).
    - rewrite Sc, Et. unfold cname. cbn [cr_file cr_path]. rewrite sep_join_chain.
      change (map (fun n => lit "_" ++ n) (a :: b :: p)) with ((lit "_" ++ a) :: names).
      rewrite El. cbn [map concat e0 show]. rewrite !map_app, !concat_app. cbn [map concat]. rewrite ?app_nil_r, <- ?app_assoc. reflexivity.
    - exact Wc.
    - apply Ev. unfold e0. cbn [eval python i_name i_attr]. rewrite (HM m ns A). cbn [bind attr]. rewrite A. unfold module_attr.
      rewrite (module_reserved ns (lit "_" ++ a) C Top); [reflexivity| |].
      + exists underscore, a. split; [reflexivity|apply Z.eqb_refl].
      + intros (y & Ey). destruct y as [|z y].
        * injection Ey as Ey. destruct Ca as (N0 & U). apply U. rewrite Ey. cbn; tauto.
        * injection Ey as _ Ey. destruct Ca as (N0 & U). apply U. rewrite Ey. apply in_or_app. right. now left. }
  intros r. split; [intros X'; exact (evals_fun _ _ _ _ _ _ _ _ X' X)|now intros ->].
Qed.

(** ** C63: reflection data *)

(** Whatever the object, in one segment or in several, the text denotes it. *)
Theorem C63_embedded_object pyx I locals globals cls c o d vs sizes :
  in_module pyx I locals globals -> assoc cls (header pyx) = Some (VCls c) -> ident cls = true -> obj_den o d vs ->
  forall r, evals pyx I sizes locals globals (declare_const cls o None) r <-> r = Ok (VObj c o).
Proof.
  intros (HI & HH & HM) A Ic O.
  assert (X : evals pyx I sizes locals globals (declare_const cls o None) (Ok (VObj c o))).
  { apply denotes_evals, denotes_c_d, declare_denotes; [exact HH| |exact (init_ok _ _ _ O)|exact Logic.I]. apply name_denotes; [exact Ic|now apply HH]. }
  intros r. split; [intros X'; exact (evals_fun _ _ _ _ _ _ _ _ X' X)|now intros ->].
Qed.

(** A file: after the import, _reflection_data holds the request the compiler
    worked on and its default options, if the file wants it; else there is
    none. *)
Theorem C63_reflection_data I nodes fuel fp raw file_opts request dopts dd dvs sizes :
  imports_ok I -> file_ok nodes -> loads raw = Ok (Some request) -> obj_den dopts dd dvs ->
  include_reflection_data file_opts <> bool_notset ->
  consts_ok fuel fp I raw file_opts nodes ->
  exists stmts s, emit_file fuel fp false request dopts file_opts nodes = Ok stmts /\
    (forall r, run false I sizes (start false I) stmts r <-> r = Ok s) /\
    (on file_opts -> assoc (lit "_reflection_data") (ms_globals s) = Some (VRefl request dopts)) /\
    (off file_opts -> assoc (lit "_reflection_data") (ms_globals s) = None).
Proof.
  intros HI HF HR HD HO HC.
  destruct (module_runs I nodes (if include_reflection_data file_opts =? 0 then None else Some (request, dopts)) HI HF fuel fp raw file_opts request dopts sizes HR)
    as (stmts & s & E & R & _ & V); try assumption; try reflexivity.
  - intros (N1 & N2). now replace (include_reflection_data file_opts =? 0) with false by (symmetry; lia).
  - exact (init_ok _ _ _ HD).
  - exists stmts, s. split; [exact E|]. split; [intros r; split; [intros R'; exact (eq_sym (run_fun _ _ _ _ _ _ R _ R'))|now intros ->]|].
    rewrite V. split.
    + intros (N1 & N2). now replace (include_reflection_data file_opts =? 0) with false by (symmetry; lia).
    + intros N. rewrite N. reflexivity.
Qed.

(** ** Examples *)

(** The request: a struct whose pointers are Values
      0: -5 :Int32              1: "abc" :Text
      2: (7) :Outer.Inner       3: [(1), (2)] :List(Outer.Inner)
      4: [[red]] :List(List(Color))     5: (9) :Point, of another file
      6: 1.5 :Float64           7: infinity *)
Definition val (tag a b : Z) (p : value) : value := VStruct (le_enc 2 tag ++ le_enc 2 a ++ le_enc 4 b ++ le_enc 8 0) [p].
Definition val64 (tag x : Z) : value := VStruct (le_enc 8 tag ++ le_enc 8 x) [VNull].
Definition word_struct (x : Z) : value := VStruct (le_enc 8 x) [].
Definition req_vs : list value :=
  [val 4 0 (2 ^ 32 - 5) VNull;
   val 12 0 0 (vtext "abc");
   val 16 0 0 (word_struct 7);
   val 14 0 0 (VComp 1 0 [(le_enc 8 1, []); (le_enc 8 2, [])] []);
   val 14 0 0 (VPtrs [VList 3 1 (le_enc 2 0)]);
   val 16 0 0 (word_struct 9);
   val64 11 4609434218613702656;
   val64 11 9218868437227405312].
Definition req_seg : seg := {| sbuf := le_enc 8 (w_struct 0 0 8) ++ content (VStruct [] req_vs); soffs := None |}.
Definition req_raw : bytes := frame_with [] [sbuf req_seg].
Definition req : obj := {| o_seg := req_seg; o_off := 8; o_ptrs := 8; o_ds := 0; o_ps := 8 |}.
Definition req_val (k : Z) : obj := match o_read_struct req (8 * k) with Ok (Some o) => o | _ => req end.

Lemma req_loads : loads req_raw = Ok (Some req).
Proof. vm_compute. reflexivity. Qed.
Lemma req_den : obj_den req [] req_vs.
Proof.
  apply (enc_obj [] req_vs req_seg 8); [|lia|vm_compute; discriminate|].
  - cbn. repeat split. all: try (vm_compute; congruence). repeat constructor.
  - repeat split; vm_compute; congruence.
Qed.

Lemma req_val_ok k d vs : 0 <= k -> v_ptr req_vs k = VStruct d vs -> obj_den (req_val k) d vs /\ reach_obj req_raw (req_val k) /\ o_seg (req_val k) = req_seg.
Proof.
  intros Hk E. pose proof (o_read_struct_spec req [] req_vs k req_den Hk) as X. rewrite E in X. destruct X as (o & X & O & S).
  unfold req_val. rewrite X. split; [exact O|]. split; [|exact S]. apply (ro_field _ req k); [|exact X]. apply ro_loads, req_loads.
Qed.

(** The file:
      enum Color { red @0; }
      struct Outer {
        struct Inner { x @0 :Int64; const deep :Int32 = -5; }
        const home :Inner = (x = 7);
        const many :List(Inner) = [(x = 1), (x = 2)];
      }
      const label :Text = "abc";
      const grid :List(List(Color)) = [[red]];
      const spot :import "other.capnp".Point = (x = 9);
      const half :Float64 = 1.5; *)
Definition s_ (x : string) : str := lit x.
Definition other_var : str := lit "_other_capnp".
Definition other : list ndesc :=
  [mkndesc [s_ "Point"] (NStruct false); mkndesc [s_ "Box"] (NStruct false); mkndesc [s_ "Box"; s_ "Side"] (NStruct false)].
Definition I0 : imports := [(other_var, other)].
Definition fl : floats := mkfloats (fun _ => lit "1.5") (fun b => if b =? 4609434218613702656 then lit "1.5" else lit "inf").
Definition opts_on : opts := mkopts 1 1 1 1.
Definition opts_off : opts := mkopts 1 1 1 0.
Definition inner_ref : cref := here [s_ "Outer"; s_ "Inner"].
Definition point_ref : cref := mkcref (Some other_var) [s_ "Point"].
Definition cst (t : sty) (k : Z) (o : opts) : cconst := mkcconst t (req_val k) o.
Definition file0 : list tnode :=
  [TEnum (s_ "Color");
   TStruct (s_ "Outer") false
     [TStruct (s_ "Inner") false [TConst (s_ "deep") (cst (SInt Fi) 0 opts_on)];
      TConst (s_ "home") (cst (SStruct inner_ref) 2 opts_on);
      TConst (s_ "many") (cst (SList (SStruct inner_ref)) 3 opts_on)];
   TConst (s_ "label") (cst SText 1 opts_on);
   TConst (s_ "grid") (cst (SList (SList (SEnum (here [s_ "Color"])))) 4 opts_on);
   TConst (s_ "spot") (cst (SStruct point_ref) 5 opts_off);
   TConst (s_ "half") (cst SFloat64 6 opts_on)].


Lemma no_in (x : Z) (l : list Z) : existsb (Z.eqb x) l = false -> ~ In x l.
Proof. intros H J. assert (existsb (Z.eqb x) l = true) by (apply existsb_exists; exists x; split; [exact J|apply Z.eqb_refl]). congruence. Qed.
Lemma no_in_str (x : str) (l : list str) : existsb (str_eqb x) l = false -> ~ In x l.
Proof. intros H J. assert (existsb (str_eqb x) l = true) by (apply existsb_exists; exists x; split; [exact J|apply str_eqb_refl']). congruence. Qed.
Lemma I0_ok : imports_ok I0.
Proof.
  intros m ns A. unfold I0 in A. cbn [assoc] in A. destruct (str_eqb other_var m) eqn:E; [|discriminate].
  apply str_eqb_spec in E. subst m. injection A as <-. split; [exists (lit "other"); split; reflexivity|].
  split; [|split].
  - split.
    + intros d J. cbn [other In] in J. repeat (destruct J as [<-|J]; [split; [discriminate|repeat (constructor; [split; [discriminate|apply no_in; reflexivity]|]); constructor]|]). destruct J.
    + intros d e J K E. cbn [other In] in J, K.
      repeat (destruct J as [<-|J]; [repeat (destruct K as [<-|K]; [try discriminate E; reflexivity|]); destruct K|]). destruct J.
  - intros d J K. cbn [other In] in J. repeat (destruct J as [<-|J]; [discriminate K|]). destruct J.
  - intros d n J K. cbn [other In] in J. repeat (destruct J as [<-|J]; [cbn [nd_path In] in K; repeat (destruct K as [<-|K]; [reflexivity|]); destruct K|]). destruct J.
Qed.

Definition plain_b (n : str) : bool := ident n && negb (existsb (Z.eqb underscore) n) && negb (existsb (str_eqb n) kwlist3).
Lemma plain_b_ok n : plain_b n = true -> plain_name n.
Proof.
  intros H. apply andb_prop in H as (H & C). apply andb_prop in H as (A & B). apply negb_true_iff in B, C.
  split; [exact A|]. split; [now apply no_in|now apply no_in_str].
Qed.
Lemma file_ok_b nodes : Forall (fun e => Forall (fun n => plain_b n = true) (fst e) /\
    match snd e with TAnn _ => length (fst e) = 1%nat | TOther _ => False | _ => True end) (flats nodes) ->
  NoDup (map fst (flats nodes)) -> file_ok nodes.
Proof.
  intros F N. rewrite Forall_forall in F. constructor.
  - intros q t J. destruct (F _ J) as (A & _). eapply Forall_impl; [|exact A]. exact plain_b_ok.
  - exact N.
  - intros q t J. exact (proj2 (F _ J)).
Qed.
Lemma file0_ok : file_ok file0.
Proof.
  apply file_ok_b.
  - repeat (constructor; [split; [repeat constructor|exact Logic.I]|]). constructor.
  - cbn [file0 flats flat_map flat tname app map fst]. repeat (constructor; [intros J; cbn [In] in J; intuition discriminate|]). constructor.
Qed.


Lemma on_on : on opts_on. Proof. split; discriminate. Qed.
Lemma float_fl s : float_text s -> finite_text s.
Proof. intros F. left. apply (reads_show (EFloat s)). now constructor. Qed.
Lemma file0_declared : is_declared I0 file0 true inner_ref /\ is_declared I0 file0 true point_ref /\ is_declared I0 file0 false (here [s_ "Color"]).
Proof.
  split; [|split].
  - eexists. split; [right; right; left; reflexivity|reflexivity].
  - split; [discriminate|]. exists other. split; [reflexivity|]. split.
    + eexists. split; [left; reflexivity|]. split; reflexivity.
    + intros q x r E Nq. destruct q as [|a q]; [congruence|]. injection E as _ E. destruct q; discriminate E.
  - eexists. split; [left; reflexivity|reflexivity].
Qed.
Lemma const_ok_req I nodes p before c t k o d x : 0 <= k -> c = cst t k o -> v_ptr req_vs k = VStruct d [x] -> carries fl d [x] t ->
  match t with
    | SStruct r =>
        is_declared I nodes true r /\
        (cr_file r = None -> forall x, cr_path r = [x] -> ~ In x before) /\
        (on o /\ on opts_on \/ off o /\ compact_fits 4 req_raw (req_val k) x)
    | SList t => on o /\ on opts_on /\ items_ready I nodes p t /\ item_of (text_type o) t <> None
    | _ => True
  end -> const_ok 4 fl I req_raw opts_on nodes p before c.
Proof.
  intros Hk -> E C H. destruct (req_val_ok k d [x] Hk E) as (O & R & _). split; [exact R|].
  exists d, [x]. split; [exact O|]. split; [exact C|]. exact H.
Qed.
Lemma nth_split {A} (l k1 k2 : list A) x : l = k1 ++ x :: k2 -> nth_error l (length k1) = Some x /\ k1 = firstn (length k1) l.
Proof.
  intros ->. split; [rewrite nth_error_app2, Nat.sub_diag by lia; reflexivity|]. now rewrite firstn_app, firstn_all, Nat.sub_diag, firstn_O, app_nil_r.
Qed.
Lemma const_inj n n' c c' : Some (TConst n c) = Some (TConst n' c') -> c' = c.
Proof. congruence. Qed.
Lemma file0_consts : consts_ok 4 fl I0 req_raw opts_on file0.
Proof.
  destruct file0_declared as (D1 & D2 & D3).
  split.
  - intros n c J. cbn [file0 In] in J.
    destruct J as [J|[J|[J|[J|[J|[J|[]]]]]]]; try discriminate J; injection J as <- <-.
    + eapply (const_ok_req _ _ _ _ _ _ 1); [lia|reflexivity|reflexivity| |exact Logic.I].
      split; [vm_compute; reflexivity|]. right. do 2 eexists. split; [reflexivity|vm_compute; discriminate].
    + eapply (const_ok_req _ _ _ _ _ _ 4); [lia|reflexivity|reflexivity| |].
      * split; [vm_compute; reflexivity|exact Logic.I].
      * split; [exact on_on|]. split; [exact on_on|]. split; [|discriminate]. split; [exact D3|discriminate].
    + eapply (const_ok_req _ _ _ _ _ _ 5); [lia|reflexivity|reflexivity| |].
      * split; [vm_compute; reflexivity|]. do 2 eexists. reflexivity.
      * split; [exact D2|]. split; [discriminate|]. right. split; [reflexivity|].
        split; [vm_compute; discriminate|]. split; [eapply (proj1 (proj2 (req_val_ok 5 _ _ ltac:(lia) eq_refl)))|].
        split; [repeat split; vm_compute; congruence|]. split; [vm_compute; discriminate|vm_compute; repeat constructor].
    + eapply (const_ok_req _ _ _ _ _ _ 6); [lia|reflexivity|reflexivity| |exact Logic.I].
      split; [vm_compute; reflexivity|]. change (finite_text (lit "1.5")). apply float_fl. split; reflexivity.
  - intros p m g kids k1 n c k2 J E. cbn [file0 flats flat_map flat tname app In] in J.
    destruct J as [J|[J|[J|[J|[J|[J|[J|[J|[J|[J|[]]]]]]]]]]]; try discriminate J; injection J as <- <- <- <-.
    + apply nth_split in E as (E & F). destruct (length k1) as [|[|[|i]]]; cbn [nth_error firstn] in E, F; subst k1.
      * discriminate E.
      * apply const_inj in E as ->. eapply (const_ok_req _ _ _ _ _ _ 2); [lia|reflexivity|reflexivity| |].
        -- split; [vm_compute; reflexivity|]. do 2 eexists. reflexivity.
        -- split; [exact D1|]. split; [discriminate|]. left. split; exact on_on.
      * apply const_inj in E as ->. eapply (const_ok_req _ _ _ _ _ _ 3); [lia|reflexivity|reflexivity| |].
        -- split; [vm_compute; reflexivity|exact Logic.I].
        -- split; [exact on_on|]. split; [exact on_on|]. split; [|discriminate]. split; [exact D1|]. intros _. right.
           exists [[s_ "Outer"; s_ "Inner"]], []. split; [reflexivity|now left].
      * destruct i; discriminate E.
    + apply nth_split in E as (E & F). destruct (length k1) as [|i]; cbn [nth_error firstn] in E, F; subst k1.
      * apply const_inj in E as ->. eapply (const_ok_req _ _ _ _ _ _ 0); [lia|reflexivity|reflexivity| |exact Logic.I].
        split; [vm_compute; reflexivity|exact Logic.I].
      * destruct i; discriminate E.
Qed.
Example C61_ex : imports_ok I0 /\ file_ok file0 /\ loads req_raw = Ok (Some req) /\ obj_den req [] req_vs /\
  include_reflection_data opts_on <> bool_notset /\ consts_ok 4 fl I0 req_raw opts_on file0.
Proof. split; [exact I0_ok|]. split; [exact file0_ok|]. split; [exact req_loads|]. split; [exact req_den|]. split; [discriminate|exact file0_consts]. Qed.
(** the text of two of these constants *)
Example C61_text_ex : emit_const 4 fl false (cst (SStruct inner_ref) 2 opts_on) = Ok (lit "Outer_Inner.from_buffer(_reflection_data.request._seg, 152, 1, 0)") /\
  emit_const 4 fl false (cst (SStruct point_ref) 5 opts_off) = Ok (lit "_other_capnp.Point.from_buffer(_Segment(b'\x00\x00\x00\x00\x01\x00\x00\x00\t\x00\x00\x00\x00\x00\x00\x00'), 8, 1, 0)") /\
  emit_const 4 fl true (cst (SList (SList (SEnum (here [s_ "Color"])))) 4 opts_on) =
    Ok (lit "_List.from_buffer(_reflection_data.request._seg, 232, 6, 1, _ListItemType(_Color_list_item_type))").
Proof. split; [|split]; vm_compute; reflexivity. Qed.

(** *** The points of a module where something goes wrong *)
Definition g_off (pyx : bool) : list (str * pyv) := header pyx ++ import_bindings I0.
Definition g_on (pyx : bool) : list (str * pyv) := (lit "_reflection_data", VRefl req req) :: g_off pyx.
Lemma in_module_I0 pyx ex l g : l ++ g = ex ++ g_off pyx ->
  (forall n, In n (map fst ex) -> assoc n (g_off pyx) = None) -> in_module pyx I0 l g.
Proof.
  intros E N. split; [exact I0_ok|].
  assert (X : forall n v, ~ reserved n -> assoc n (g_off pyx) = Some v -> name l g n = Ok v).
  { intros n v R A. rewrite name_nil, E. apply name_assoc; [exact R|]. rewrite assoc_app.
    destruct (assoc n ex) as [w|] eqn:Ex; [|exact A]. apply assoc_in in Ex. rewrite N in A; [discriminate|]. apply in_map_iff. exists (n, w). auto. }
  split.
  - intros n v A. apply X; [|unfold g_off; rewrite assoc_app, A; reflexivity].
    intros [-> |[-> | ->]]; destruct pyx; discriminate A.
  - intros m ns A. cbn [I0 assoc] in A. destruct (str_eqb other_var m) eqn:Em; [|discriminate]. apply str_eqb_spec in Em as <-.
    apply X; [intros [R|[R|R]]; discriminate R|]. destruct pyx; reflexivity.
Qed.
Lemma in_module_off pyx : in_module pyx I0 [] (g_off pyx).
Proof. apply (in_module_I0 pyx []); [reflexivity|intros n []]. Qed.
Lemma in_module_on pyx l : (forall n, In n (map fst l) -> assoc n (g_off pyx) = None) -> in_module pyx I0 l (g_on pyx).
Proof.
  intros H. apply (in_module_I0 pyx (l ++ [(lit "_reflection_data", VRefl req req)])); [unfold g_on; now rewrite <- app_assoc|].
  intros n J. rewrite map_app in J. apply in_app_or in J as [J|[<-|[]]]; [now apply H|]. destruct pyx; reflexivity.
Qed.

(** [C61_constant], with Cython *)
Example C61_constant_ex : let c := cst (SList (SList (SStruct point_ref))) 4 opts_on in
  in_module true I0 [] (g_on true) /\ (exists d vs, obj_den (cc_value c) d vs /\ carries fl d vs (cc_type c)) /\ on (cc_opts c) /\
  reflection_visible [] (g_on true) (o_seg (cc_value c)) /\ items_visible true I0 [] (g_on true) (SList (SStruct point_ref)) /\
  item_of (text_type (cc_opts c)) (SList (SStruct point_ref)) <> None.
Proof.
  cbn zeta. split; [apply in_module_on; intros n []|]. split.
  - do 2 eexists. split; [exact (proj1 (req_val_ok 4 _ _ ltac:(lia) eq_refl))|]. split; [vm_compute; reflexivity|exact Logic.I].
  - split; [exact on_on|]. split; [exists req, req; split; [reflexivity|]; symmetry; exact (proj2 (proj2 (req_val_ok 4 _ _ ltac:(lia) eq_refl)))|].
    split; [|discriminate]. cbn [items_visible]. unfold item_visible. cbn [point_ref cr_file cr_path]. split; [discriminate|].
    exists other. split; [reflexivity|]. split; [|now left]. destruct file0_declared as (_ & (_ & ns & A & D) & _).
    cbn [point_ref cr_file cr_path] in A, D. change (assoc other_var I0) with (Some other) in A. injection A as <-. exact D.
Qed.
Example C61_infinity_ex : let c := cst SFloat64 7 opts_on in
  exists d vs, obj_den (cc_value c) d vs /\ v_prim d 0 Fh = 11 /\ fp64 fl (v_prim d 8 FQ) = lit "inf" /\
    unbound [] (g_on false) (lit "inf") /\ unbound [] (g_on false) (lit "nan").
Proof.
  do 2 eexists. split; [exact (proj1 (req_val_ok 7 _ _ ltac:(lia) eq_refl))|].
  split; [vm_compute; reflexivity|]. split; [vm_compute; reflexivity|]. split; split; reflexivity.
Qed.
(** struct Outer $Py.options(includeReflectionData = true), the file without *)
Example C61_no_reflection_ex : let c := cst (SStruct point_ref) 5 opts_on in
  in_module false I0 [] (g_off false) /\ (exists d vs, obj_den (cc_value c) d vs /\ carries fl d vs (cc_type c)) /\
  class_visible I0 [] (g_off false) point_ref /\ on (cc_opts c) /\ unbound [] (g_off false) (lit "_reflection_data").
Proof.
  cbn zeta. split; [apply in_module_off|]. split; [|split; [exact (proj1 (proj2 file0_declared))|split; [exact on_on|split; reflexivity]]].
  do 2 eexists. split; [exact (proj1 (req_val_ok 5 _ _ ltac:(lia) eq_refl))|]. split; [vm_compute; reflexivity|]. do 2 eexists. reflexivity.
Qed.
(** struct Outer { struct Inner { ... }  const all :List(Outer) = ...; } *)
Example C61_later_struct_ex : let c := cst (SList (SStruct (here [s_ "Outer"]))) 3 opts_on in
  let locals := [(s_ "Inner", VCls (CUser inner_ref))] in
  in_module false I0 locals (g_on false) /\ (exists d vs, obj_den (cc_value c) d vs /\ carries fl d vs (cc_type c)) /\
  Forall (fun n => ident n = true) [s_ "Outer"] /\ unbound locals (g_on false) (item_name [s_ "Outer"]) /\
  on (cc_opts c) /\ reflection_visible locals (g_on false) (o_seg (cc_value c)).
Proof.
  cbn zeta. split; [apply in_module_on; intros n [<-|[]]; reflexivity|]. split.
  - do 2 eexists. split; [exact (proj1 (req_val_ok 3 _ _ ltac:(lia) eq_refl))|]. split; [vm_compute; reflexivity|exact Logic.I].
  - split; [repeat constructor|]. split; [split; reflexivity|]. split; [exact on_on|].
    exists req, req. split; [reflexivity|]. symmetry. exact (proj2 (proj2 (req_val_ok 3 _ _ ltac:(lia) eq_refl))).
Qed.
(** struct Inner { ... }  struct Outer { struct Inner { ... }  const k :.Inner = ...; } *)
Example C61_shadowed_ex : let c := cst (SStruct (here [s_ "Inner"])) 2 opts_on in
  let locals := [(s_ "Inner", VCls (CUser inner_ref))] in
  let globals := (s_ "Outer_Inner", VCls (CUser inner_ref)) :: (s_ "Inner", VCls (CUser (here [s_ "Inner"]))) :: g_on false in
  let nodes := [TStruct (s_ "Inner") false []; TStruct (s_ "Outer") false [TStruct (s_ "Inner") false []; TConst (s_ "k") c]] in
  file_ok nodes /\
  (** the class body *)
  child_refs 4 fl false [s_ "Outer"] [TStruct (s_ "Inner") false []; TConst (s_ "k") c] =
    Ok [(s_ "Inner", lit "Outer_Inner"); (s_ "k", lit "Inner.from_buffer(_reflection_data.request._seg, 152, 1, 0)")] /\
  in_module false I0 locals globals /\ (exists d vs, obj_den (cc_value c) d vs /\ carries fl d vs (cc_type c)) /\
  name locals globals (s_ "Inner") = Ok (VCls (CUser inner_ref)) /\ inner_ref <> here [s_ "Inner"] /\
  on (cc_opts c) /\ reflection_visible locals globals (o_seg (cc_value c)).
Proof.
  cbn zeta. split.
  { apply file_ok_b.
    - repeat (constructor; [split; [repeat constructor|exact Logic.I]|]). constructor.
    - cbn [flats flat_map flat tname app map fst]. repeat (constructor; [intros J; cbn [In] in J; intuition discriminate|]). constructor. }
  split; [vm_compute; reflexivity|]. split.
  { apply (in_module_I0 false [(s_ "Inner", VCls (CUser inner_ref)); (s_ "Outer_Inner", VCls (CUser inner_ref)); (s_ "Inner", VCls (CUser (here [s_ "Inner"])));
      (lit "_reflection_data", VRefl req req)]); [reflexivity|]. cbn [map fst In]. intros n [<-|[<-|[<-|[<-|[]]]]]; reflexivity. }
  split.
  { do 2 eexists. split; [exact (proj1 (req_val_ok 2 _ _ ltac:(lia) eq_refl))|]. split; [vm_compute; reflexivity|]. do 2 eexists. reflexivity. }
  split; [reflexivity|]. split; [discriminate|]. split; [exact on_on|].
  exists req, req. split; [reflexivity|]. symmetry. exact (proj2 (proj2 (req_val_ok 2 _ _ ltac:(lia) eq_refl))).
Qed.
Example C61_interface_ex : In ([s_ "Outer"; s_ "Calc"], TOther (s_ "Calc"))
  (flats [TEnum (s_ "Color"); TStruct (s_ "Outer") false [TOther (s_ "Calc")]]).
Proof. right. right. now left. Qed.

(** List(List(Text)) with textType = unicode, and a list of an imported
    struct, in both modes *)
Example C62_ex : item_of 2 (SList SText) = Some (JList (JText true)) /\ items_visible false I0 [] (g_off false) (SList SText) /\
  list_item_type false 2 (SList SText) = Ok (lit "_ListItemType(_TextUnicodeItemType(_Types.text))") /\
  list_item_type true 2 (SList SText) = Ok (lit "_ListItemType(_text_unicode_list_item_type)") /\
  list_item_type false 2 (SStruct point_ref) = Ok (lit "_other_capnp._Point_list_item_type") /\
  list_item_type true 2 (SStruct point_ref) = Ok (lit "_StructItemType(_other_capnp.Point)").
Proof. vm_compute. auto 10. Qed.
Example C62_nested_import_ex : assoc other_var I0 = Some other /\ (exists d, In d other /\ nd_path d = [s_ "Box"; s_ "Side"]) /\
  list_item_type false 1 (SStruct (mkcref (Some other_var) [s_ "Box"; s_ "Side"])) = Ok (lit "_other_capnp._Box._Side_list_item_type").
Proof. split; [reflexivity|]. split; [eexists; split; [right; right; left; reflexivity|reflexivity]|]. vm_compute. reflexivity. Qed.
(** a message in two segments *)
Example C63_ex : declare_const (lit "_CodeGeneratorRequest") {| o_seg := {| sbuf := le_enc 4 0 ++ abc ++ le_enc 1 0; soffs := Some [0; 8] |}; o_off := 0; o_ptrs := 8; o_ds := 1; o_ps := 0 |} None =
    lit "_CodeGeneratorRequest.from_buffer(_MultiSegment(b'\x00\x00\x00\x00abc\x00', (0, 8)), 0, 1, 0)" /\
  obj_den {| o_seg := {| sbuf := le_enc 4 0 ++ abc ++ le_enc 1 0; soffs := Some [0; 8] |}; o_off := 0; o_ptrs := 8; o_ds := 1; o_ps := 0 |} (le_enc 4 0 ++ abc ++ le_enc 1 0) [] /\
  assoc (lit "_CodeGeneratorRequest") (header true) = Some (VCls CRequest) /\ ident (lit "_CodeGeneratorRequest") = true /\ in_module true I0 [] (g_off true).
Proof.
  split; [vm_compute; reflexivity|]. split; [|split; [reflexivity|split; [reflexivity|apply in_module_off]]].
  split; [reflexivity|]. split; [cbn; lia|]. split; [cbn; lia|]. split; [vm_compute; reflexivity|]. constructor. split; vm_compute; discriminate.
Qed.
Print Assumptions C61_constants_of_a_file.
Print Assumptions C61_constant.
Print Assumptions C61_list_without_reflection_refuted.
Print Assumptions C61_infinity_refuted.
Print Assumptions C61_no_reflection_refuted.
Print Assumptions C61_later_struct_refuted.
Print Assumptions C61_shadowed_refuted.
Print Assumptions C61_interface_refuted.
Print Assumptions C62_item_type.
Print Assumptions C62_no_item_type.
Print Assumptions C62_nested_import_refuted.
Print Assumptions C63_embedded_object.
Print Assumptions C63_reflection_data.
