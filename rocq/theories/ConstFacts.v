(** Facts about the texts of Const.v, read and evaluated as ConstSpec.v says. *)
From Coq Require Import Strings.String.
From Verif Require Import Base BaseFacts Spec Ptr Segment Builder Struct List Query Case CaseFacts Options Loader Names NamesFacts
  Repr ReprSpec ReprParse StructFacts ReadFacts Enc ObjFacts AlignFacts Enum Ctor CtorProps PyExpr PyExprFacts Const ConstSpec.
From Coq Require Import Lists.List.
Local Notation length := Datatypes.length.

(** ** Expressions that denote something *)
Section env.
  Variables (pyx : bool) (I : imports) (sizes : cref -> Z * Z) (locals globals : list (str * pyv)).
  Notation py := (python pyx I sizes locals globals).

  (** the text is an expression (that can be called, or have attributes)
      whose value is [v] *)
  Definition denotes (text : str) (v : pyv) : Prop :=
    exists e, show e = text /\ wf e /\ eval py e = Ok v.
  Definition denotes_c (text : str) (v : pyv) : Prop :=
    exists e, show e = text /\ wf e /\ callable e = true /\ eval py e = Ok v.

  Lemma denotes_evals text v : denotes text v -> evals pyx I sizes locals globals text (Ok v).
  Proof. intros (e & <- & W & E). rewrite <- E. apply ev_ok. now apply reads_show. Qed.
  Lemma denotes_c_d text v : denotes_c text v -> denotes text v.
  Proof. intros (e & H & W & _ & E). now exists e. Qed.

  Lemma evals_fun text a b : evals pyx I sizes locals globals text a -> evals pyx I sizes locals globals text b -> a = b.
  Proof.
    intros [e R|N] H; inversion H as [e' R' Eq|N' Eq]; [|exfalso; eapply N'; eassumption|exfalso; eapply N; eassumption|reflexivity].
    now rewrite (reads_fun _ _ _ R R').
  Qed.
  Lemma raises text e x : show e = text -> wf e -> eval py e = Err x -> evals pyx I sizes locals globals text (Err x).
  Proof. intros <- W <-. apply ev_ok. now apply reads_show. Qed.

  Definition int_expr (z : Z) : expr := if z <? 0 then ENeg (ENum (- z)) else ENum z.
  Lemma int_denotes z : denotes (dec z) (VInt z).
  Proof.
    exists (int_expr z). unfold int_expr, dec. destruct (Z.ltb_spec z 0) as [L|L].
    - split; [reflexivity|]. split; [constructor; constructor; lia|]. cbn. now rewrite Z.opp_involutive.
    - split; [reflexivity|]. split; [constructor; lia|reflexivity].
  Qed.
  Lemma bytes_denotes b : denotes (lit "b" ++ bytes_repr b) (VBytes b).
  Proof. exists (EBytes b). split; [reflexivity|]. split; [constructor|reflexivity]. Qed.
  Lemma name_denotes n v : ident n = true -> name locals globals n = Ok v -> denotes_c n v.
  Proof. intros N E. exists (EName n). split; [reflexivity|]. split; [now constructor|]. split; [reflexivity|exact E]. Qed.
  Lemma attr_denotes text n w v : denotes_c text w -> ident n = true -> attr pyx I w n = Ok v ->
    denotes_c (text ++ [46] ++ n) v.
  Proof.
    intros (e & <- & W & C & E) N A. exists (EAttr e n). split; [reflexivity|]. split; [now constructor|].
    split; [reflexivity|]. cbn [eval]. rewrite E. exact A.
  Qed.

  (** a list of arguments *)
  Inductive denotes_all : list str -> list pyv -> Prop :=
  | da_nil : denotes_all [] []
  | da_cons : forall t v ts vs, denotes t v -> denotes_all ts vs -> denotes_all (t :: ts) (v :: vs).
  Definition eval_list := fix all l := match l with
                             | [] => Ok []
                             | x :: r => do a <- eval py x; do b <- all r; Ok (a :: b)
                             end.
  Lemma denotes_all_list ts vs : denotes_all ts vs ->
    exists l, map show l = ts /\ (forall x, In x l -> wf x) /\ eval_list l = Ok vs.
  Proof.
    induction 1 as [|t v ts vs (e & E & W & V) _ (l & L & Wl & El)]; [exists []; split; [reflexivity|]; split; [contradiction|reflexivity]|].
    exists (e :: l). split; [cbn [map]; congruence|]. split; [intros x [<-|X]; auto|]. cbn [eval_list].
    change (do a <- eval py e; do b <- eval_list l; Ok (a :: b) = Ok (v :: vs)). rewrite V. cbn [bind]. now rewrite El.
  Qed.
  Lemma call_denotes text w ts vs v : denotes_c text w -> denotes_all ts vs -> call sizes w vs = Ok v ->
    denotes_c (text ++ [40] ++ join_with comma ts ++ [41]) v.
  Proof.
    intros (e & <- & W & C & E) A V. destruct (denotes_all_list _ _ A) as (l & <- & Wl & El).
    exists (ECall e l). split; [reflexivity|]. split; [now constructor|]. split; [reflexivity|].
    cbn [eval]. rewrite E. cbn [bind]. change (do x <- eval_list l; i_call py w x = Ok v). rewrite El. exact V.
  Qed.
  Lemma tuple_denotes z : denotes (tuple_repr z) (VTuple (map VInt z)).
  Proof.
    assert (A : denotes_all (map dec z) (map VInt z)) by (induction z as [|x z IH]; cbn [map]; constructor; [apply int_denotes|exact IH]).
    destruct (denotes_all_list _ _ A) as (l & L & Wl & El). exists (ETuple l). split; [|split; [now constructor|]].
    - unfold tuple_repr. rewrite <- L. cbn [show]. assert (Ln : length l = length z) by (rewrite <- (map_length show), L; apply map_length).
      destruct z as [|x [|y z]], l as [|x' [|y' l]]; try discriminate Ln; reflexivity.
    - cbn [eval]. change (do x <- eval_list l; Ok (VTuple x) = Ok (VTuple (map VInt z))). now rewrite El.
  Qed.
  Lemma as_zs_ints z : as_zs (map VInt z) = Some z.
  Proof. induction z as [|x z IH]; [reflexivity|]. cbn [map as_zs as_z]. now rewrite IH. Qed.

  (** ** Names *)
  Lemma sep_join_under p : sep_join (lit "_") p = join_ p.
  Proof. induction p as [|x [|y p] IH]; [reflexivity|reflexivity|]. change (x ++ lit "_" ++ sep_join (lit "_") (y :: p) = x ++ underscore :: join_ (y :: p)). now rewrite IH. Qed.
  Lemma ident_cons_under s : forallb ident_char s = true -> ident (underscore :: s) = true.
  Proof. intros H. unfold ident. cbn [forallb]. now rewrite H. Qed.
  Lemma ident_app a b : ident a = true -> forallb ident_char b = true -> ident (a ++ b) = true.
  Proof.
    destruct a as [|c a]; [discriminate|]. unfold ident. cbn [app]. intros A B. apply andb_prop in A as (A1 & A2). rewrite A1.
    change (c :: a ++ b) with ((c :: a) ++ b). now rewrite forallb_app, A2, B.
  Qed.
  Lemma ident_chars a : ident a = true -> forallb ident_char a = true.
  Proof. destruct a as [|c a]; [discriminate|]. unfold ident. intros A. now apply andb_prop in A. Qed.
  Lemma ident_join p : p <> [] -> Forall (fun n => ident n = true) p -> ident (join_ p) = true.
  Proof.
    induction p as [|x p IH]; [congruence|]. intros _ F. inversion F as [|y l X Fp]. subst. destruct p as [|y p]; [exact X|].
    change (join_ (x :: y :: p)) with (x ++ underscore :: join_ (y :: p)). apply ident_app; [exact X|].
    cbn [forallb]. now rewrite (ident_chars _ (IH ltac:(discriminate) Fp)).
  Qed.
  Lemma ident_item p : p <> [] -> Forall (fun n => ident n = true) p -> ident (item_name p) = true.
  Proof.
    intros N F. unfold item_name, pname, cname, here. cbn [cr_file cr_path]. rewrite sep_join_under. cbn [app].
    apply ident_cons_under. rewrite forallb_app, (ident_chars _ (ident_join p N F)). reflexivity.
  Qed.
  Lemma pname_join p : pname p = join_ p.
  Proof. unfold pname, cname, here. cbn [cr_file cr_path]. apply sep_join_under. Qed.

  (** ** Classes of imported files *)
  Definition header_ok : Prop := forall n v, assoc n (header pyx) = Some v -> name locals globals n = Ok v.
  Definition modules_ok : Prop := forall m ns, assoc m I = Some ns -> name locals globals m = Ok (VMod m).

  Definition cls_of (st : bool) (r : cref) : pyv := if st then VCls (CUser r) else VEnumCls r.

  Lemma get_class ns d : capnp_file ns -> annotations_on_top ns -> In d ns ->
    match nd_kind d with NStruct _ | NEnum => True | _ => False end ->
    get_name (module_defs ns) (compile_name d) = Some (BClass d).
  Proof.
    intros C T J K. apply module_names; [exact C|exact T|]. apply in_flat_map. exists d. split; [exact J|].
    unfold node_defs. destruct (nd_kind d); try contradiction; now left.
  Qed.
  Lemma get_item ns d : capnp_file ns -> annotations_on_top ns -> In d ns ->
    match nd_kind d with NStruct _ | NEnum => True | _ => False end ->
    get_name (module_defs ns) (lit "_" ++ compile_name d ++ lit "_list_item_type") = Some (BItem d).
  Proof.
    intros C T J K. apply module_names; [exact C|exact T|]. apply in_flat_map. exists d. split; [exact J|].
    unfold node_defs. destruct (nd_kind d); try contradiction; [right; apply in_or_app; right; now left|right; now left].
  Qed.
  Lemma sep_join_snoc sep a p x : sep_join sep (a :: p ++ [x]) = sep_join sep (a :: p) ++ sep ++ x.
  Proof.
    revert a. induction p as [|y p IH]; intros a; [reflexivity|]. cbn [app].
    change (sep_join sep (a :: y :: p ++ [x])) with (a ++ sep ++ sep_join sep (y :: p ++ [x])).
    change (sep_join sep (a :: y :: p)) with (a ++ sep ++ sep_join sep (y :: p)). rewrite IH. now rewrite <- !app_assoc.
  Qed.

  Hypotheses (HH : header_ok) (HM : modules_ok) (HI : imports_ok I).

  Lemma module_denotes m ns : assoc m I = Some ns -> denotes_c m (VMod m).
  Proof. intros A. destruct (HI m ns A) as ((x & -> & W) & _). apply name_denotes; [exact W|]. exact (HM _ ns A). Qed.

  Lemma declared_class m ns p : assoc m I = Some ns -> forall st, p <> [] -> declared st ns p ->
    denotes_c (cname (mkcref (Some m) p) []) (cls_of st (mkcref (Some m) p)).
  Proof.
    intros A. destruct (HI m ns A) as (_ & C & T & Id). induction p as [|x p IH] using rev_ind; [congruence|].
    intros st _ ((d & J & P & K) & Anc). unfold cname. cbn [cr_file cr_path]. rewrite sep_join_snoc, app_nil_r.
    assert (Ix : ident x = true) by (apply (Id d x J); rewrite P; apply in_or_app; right; now left).
    destruct (cf_ids _ C d J) as (_ & F). rewrite P in F. apply Forall_app in F as (F1 & F2). inversion F2 as [|? ? (_ & Ux) _]. subst.
    destruct p as [|y p].
    - change (lit ".") with [46]. apply (attr_denotes m x (VMod m)); [exact (module_denotes m ns A)|exact Ix|].
      cbn [attr]. rewrite A. unfold module_attr. cbn [app] in P.
      pose proof (get_class ns d C T J ltac:(now destruct (nd_kind d))) as G. unfold compile_name in G. rewrite P in G. cbn [join_] in G.
      rewrite G. destruct (nd_kind d); try contradiction; subst st; cbn [decl_value cls_of]; rewrite P; reflexivity.
    - change (lit ".") with [46]. assert (N : y :: p <> []) by discriminate. set (q := y :: p) in *. clearbody q.
      apply (attr_denotes _ x (VCls (CUser (mkcref (Some m) q)))); [|exact Ix|].
      + replace (sep_join [46] (m :: q)) with (cname (mkcref (Some m) q) []) by (unfold cname; cbn [cr_file cr_path]; now rewrite app_nil_r).
        apply (IH true N). split.
        * destruct (Anc q x [] ltac:(reflexivity) N) as (d' & u & J' & P' & K'). exists d'. rewrite K'. auto.
        * intros q' x' r' E Nq. apply (Anc q' x' (r' ++ [x])); [|exact Nq]. rewrite E. now rewrite <- app_assoc.
      + cbn [attr]. destruct (str_eqb x (lit "from_buffer")) eqn:Ex; [apply str_eqb_spec in Ex; subst x; exfalso; apply Ux; cbn; tauto|].
        rewrite A. unfold class_attr.
        destruct (find _ ns) as [e|] eqn:Fe.
        * apply find_some in Fe as (Je & Ke). apply andb_prop in Ke as (Ke1 & Ke2). unfold path_eqb in Ke1.
          destruct (path_eq_dec (nd_path e) (q ++ [x])) as [Pe|]; [|discriminate].
          assert (e = d) by (apply (cf_distinct _ C e d Je J); congruence). subst e.
          destruct (nd_kind d); try contradiction; subst st; cbn [decl_value cls_of]; rewrite P; reflexivity.
        * exfalso. pose proof (find_none _ _ Fe d J) as X. cbn beta in X. unfold path_eqb in X. rewrite P in X.
          destruct (path_eq_dec (q ++ [x]) (q ++ [x])); [|congruence]. destruct (nd_kind d); try contradiction; discriminate.
  Qed.

  (** the item type of a top-level declaration of an imported file *)
  Lemma declared_item m ns x st : assoc m I = Some ns -> declared st ns [x] -> st = false \/ pyx = false ->
    denotes_c (cname (mkcref (Some m) [x]) (lit "_") ++ lit "_list_item_type")
      (VItem (if st then JStruct (mkcref (Some m) [x]) else JEnum (mkcref (Some m) [x]))).
  Proof.
    intros A ((d & J & P & K) & _) X. destruct (HI m ns A) as (_ & C & T & Id).
    assert (Ix : ident x = true) by (apply (Id d x J); rewrite P; now left).
    unfold cname. cbn [cr_file cr_path sep_join].
    replace ((m ++ (lit "." ++ lit "_") ++ x) ++ lit "_list_item_type") with (m ++ [46] ++ (lit "_" ++ x ++ lit "_list_item_type"))
      by (rewrite <- !app_assoc; reflexivity).
    apply (attr_denotes m _ (VMod m)); [exact (module_denotes m ns A)| |].
    - apply ident_cons_under. rewrite forallb_app, (ident_chars _ Ix). reflexivity.
    - cbn [attr]. rewrite A. unfold module_attr.
      pose proof (get_item ns d C T J ltac:(now destruct (nd_kind d))) as G. unfold compile_name in G. rewrite P in G. cbn [join_] in G.
      rewrite G. destruct (nd_kind d); try contradiction; subst st; rewrite P; [|reflexivity]. destruct X as [X| ->]; [discriminate|reflexivity].
  Qed.

  Lemma item_visible_denotes st r : item_visible pyx I locals globals st r ->
    let text := if (if pyx then negb (is_imported r) else true)
                then cname r (lit "_") ++ lit "_list_item_type"
                else (if st then lit "_StructItemType(" else lit "_EnumItemType(") ++ cname r [] ++ lit ")" in
    denotes_c text (VItem (if st then JStruct r else JEnum r)).
  Proof.
    destruct r as [[m|] p]; unfold item_visible; cbn [cr_file cr_path is_imported negb].
    - intros (N & ns & A & D & X). destruct pyx eqn:Y.
      + cbn [negb]. assert (C : denotes_c (cname (mkcref (Some m) p) []) (cls_of st (mkcref (Some m) p))) by (now apply declared_class with ns).
        assert (AA : denotes_all [cname (mkcref (Some m) p) []] [cls_of st (mkcref (Some m) p)])
          by (constructor; [now apply denotes_c_d|constructor]).
        destruct st.
        * apply (call_denotes (lit "_StructItemType") (VItemCls IKStruct) [cname (mkcref (Some m) p) []] [cls_of true (mkcref (Some m) p)]); [|exact AA|reflexivity].
          apply name_denotes; [reflexivity|]. apply HH. rewrite Y. reflexivity.
        * apply (call_denotes (lit "_EnumItemType") (VItemCls IKEnum) [cname (mkcref (Some m) p) []] [cls_of false (mkcref (Some m) p)]); [|exact AA|reflexivity].
          apply name_denotes; [reflexivity|]. apply HH. rewrite Y. reflexivity.
      + destruct X as [X|L]; [discriminate|]. destruct p as [|x [|y p]]; try discriminate L.
        cbn [negb]. apply declared_item with ns; [exact A|exact D|now right].
    - intros (N & F & E). replace (if pyx then true else true) with true by now destruct pyx.
      unfold cname. cbn [cr_file cr_path]. rewrite <- app_assoc. change (lit "_" ++ sep_join (lit "_") p ++ lit "_list_item_type") with (item_name p).
      apply name_denotes; [now apply ident_item|exact E].
  Qed.

  (** ** Item types: list_item_type is right *)
  Lemma header_item n : forall v, assoc n (header pyx) = Some v -> ident n = true -> denotes_c n v.
  Proof. intros v A N. apply name_denotes; [exact N|now apply HH]. Qed.

  Lemma item_type_denotes tt t j : item_of tt t = Some j -> items_visible pyx I locals globals t ->
    exists text, list_item_type pyx tt t = Ok text /\ denotes_c text (VItem j).
  Proof.
    revert j. induction t as [| |f| | | | |t IH|r|r| |]; intros j H V; cbn [item_of] in H; try discriminate.
    8: { destruct (item_of tt t) as [j'|]; [|discriminate]. injection H as <-. destruct (IH j' eq_refl V) as (text & E & D).
         exists (lit "_ListItemType(" ++ text ++ lit ")"). split; [cbn [list_item_type]; destruct pyx; cbn [is_builtin]; now rewrite E|].
         apply (call_denotes (lit "_ListItemType") (VItemCls IKList) [text] [VItem j']).
         - apply header_item; [destruct pyx|]; reflexivity.
         - constructor; [now apply denotes_c_d|constructor].
         - reflexivity. }
    8,9: injection H as <-; cbn [items_visible] in V; pose proof (item_visible_denotes _ _ V) as D; cbn zeta in D;
         eexists; split; [|exact D]; cbn [list_item_type is_builtin]; destruct pyx, (is_imported r); reflexivity.
    6: destruct (Z.eqb_spec tt 1) as [->|N1]; [|destruct (Z.eqb_spec tt 2) as [->|N2]; [|discriminate]].
    all: injection H as <-.
    all: destruct pyx eqn:Y.
    (* pyx mode: names of prebuilt item types *)
    all: try (eexists; split; [reflexivity|]; apply header_item; [rewrite Y; try destruct f; reflexivity|try destruct f; reflexivity]; fail).
    (* calls *)
    all: eexists; (split; [reflexivity|]).
    1: apply (call_denotes (lit "_VoidItemType") (VItemCls IKVoid) [] []); [apply header_item; [rewrite Y; reflexivity|reflexivity]|constructor|reflexivity].
    1: apply (call_denotes (lit "_BoolItemType") (VItemCls IKBool) [] []); [apply header_item; [rewrite Y; reflexivity|reflexivity]|constructor|reflexivity].
    1: { apply (call_denotes (lit "_PrimitiveItemType") (VItemCls IKPrim) [lit "_Types." ++ int_name f] [VType (int_name f)]);
         [apply header_item; [rewrite Y; reflexivity|reflexivity]| |destruct f; reflexivity].
         constructor; [|constructor]. apply denotes_c_d. apply (attr_denotes (lit "_Types") (int_name f) VTypes); [|destruct f; reflexivity|destruct f; reflexivity].
         apply header_item; [rewrite Y; reflexivity|reflexivity]. }
    Ltac typed Y cls k n H1 :=
      apply (call_denotes (lit cls) (VItemCls k) [lit "_Types." ++ lit n] [VType (lit n)]);
         [apply H1; [rewrite Y; reflexivity|reflexivity]| |reflexivity];
         constructor; [|constructor]; apply denotes_c_d; apply (attr_denotes (lit "_Types") (lit n) VTypes); [|reflexivity|reflexivity];
         apply H1; [rewrite Y; reflexivity|reflexivity].
    - typed Y "_PrimitiveItemType"%string IKPrim "float32"%string header_item.
    - typed Y "_PrimitiveItemType"%string IKPrim "float64"%string header_item.
    - typed Y "_TextItemType"%string IKText "text"%string header_item.
    - typed Y "_TextUnicodeItemType"%string IKTextUnicode "text"%string header_item.
    - typed Y "_TextItemType"%string IKText "data"%string header_item.
  Qed.

  (** ** Constants *)
  Lemma class_denotes r : class_visible I locals globals r -> denotes_c (cname r []) (VCls (CUser r)).
  Proof.
    destruct r as [[m|] p]; unfold class_visible; cbn [cr_file cr_path].
    - intros (N & ns & A & D). exact (declared_class m ns p A true N D).
    - intros (N & F & E). unfold pname in E. unfold cname, here in *. cbn [cr_file cr_path app] in *.
      apply name_denotes; [rewrite sep_join_under; now apply ident_join|exact E].
  Qed.
  Lemma refl_denotes s : reflection_visible locals globals s -> denotes_c refl_seg (VSeg s).
  Proof.
    intros (rq & dop & E & <-).
    apply (attr_denotes (lit "_reflection_data.request") (lit "_seg") (VObj CRequest rq)); [|reflexivity|reflexivity].
    apply (attr_denotes (lit "_reflection_data") (lit "request") (VRefl rq dop)); [|reflexivity|reflexivity].
    apply name_denotes; [reflexivity|exact E].
  Qed.
  Lemma seg_denotes s : denotes_c
    (match soffs s with
     | Some offsets => lit "_MultiSegment(b" ++ bytes_repr (sbuf s) ++ lit ", " ++ tuple_repr offsets ++ lit ")"
     | None => lit "_Segment(b" ++ bytes_repr (sbuf s) ++ lit ")"
     end) (VSeg s).
  Proof.
    destruct s as [b [offs|]]; cbn [soffs sbuf].
    - replace (lit "_MultiSegment(b" ++ bytes_repr b ++ lit ", " ++ tuple_repr offs ++ lit ")")
        with (lit "_MultiSegment" ++ [40] ++ join_with comma [lit "b" ++ bytes_repr b; tuple_repr offs] ++ [41])
        by (cbn [join_with]; rewrite <- !app_assoc; reflexivity).
      apply (call_denotes _ VMultiSegment _ [VBytes b; VTuple (map VInt offs)]).
      + apply header_item; [destruct pyx|]; reflexivity.
      + constructor; [apply bytes_denotes|]. constructor; [apply tuple_denotes|constructor].
      + cbn [call]. now rewrite as_zs_ints.
    - replace (lit "_Segment(b" ++ bytes_repr b ++ lit ")")
        with (lit "_Segment" ++ [40] ++ join_with comma [lit "b" ++ bytes_repr b] ++ [41])
        by (cbn [join_with]; rewrite <- !app_assoc; reflexivity).
      apply (call_denotes _ VSegment _ [VBytes b]).
      + apply header_item; [destruct pyx|]; reflexivity.
      + constructor; [apply bytes_denotes|constructor].
      + reflexivity.
  Qed.
  Lemma declare_denotes cls c s sg : denotes_c cls (VCls c) -> init_from_buffer (o_seg s) (o_off s) (o_ds s) (o_ps s) = Ok s ->
    match sg with Some x => denotes_c x (VSeg (o_seg s)) | None => True end ->
    denotes_c (declare_const cls s sg) (VObj c s).
  Proof.
    intros C O X. unfold declare_const. set (sg' := match sg with Some x => x | None => _ end).
    assert (X' : denotes_c sg' (VSeg (o_seg s))) by (unfold sg'; destruct sg; [exact X|apply seg_denotes]). clearbody sg'. clear X.
    replace (cls ++ lit ".from_buffer(" ++ sg' ++ lit ", " ++ dec (o_off s) ++ lit ", " ++ dec (o_ds s) ++ lit ", " ++ dec (o_ps s) ++ lit ")")
      with ((cls ++ [46] ++ lit "from_buffer") ++ [40] ++ join_with comma [sg'; dec (o_off s); dec (o_ds s); dec (o_ps s)] ++ [41])
      by (cbn [join_with]; rewrite <- !app_assoc; reflexivity).
    apply (call_denotes _ (VFromBuffer c) _ [VSeg (o_seg s); VInt (o_off s); VInt (o_ds s); VInt (o_ps s)]).
    - apply (attr_denotes cls _ (VCls c)); [exact C|reflexivity|reflexivity].
    - repeat (constructor; [first [now apply denotes_c_d|apply int_denotes]|]). constructor.
    - cbn [call]. now rewrite O.
  Qed.

  Lemma list_again l v t : lobj_den l v -> v <> VNull ->
    exists l', list_init (l_seg l) (l_off l) (l_stag l) (l_count l) t = Ok l' /\ lobj_den l' v /\ l_it l' = t.
  Proof.
    intros [(p & pos & D & K & E)|(-> & _)] N; [|congruence].
    assert (G : forall t', exists l', list_init (l_seg l) (p_target p pos) (p_ltag p) (p_lcount p) t' = Ok l' /\
              l_seg l' = l_seg l /\ l_it l' = t' /\ l_off l' = p_target p pos /\ l_stag l' = p_ltag p /\
              (p_ltag p <> LIST_SIZE_COMPOSITE -> l_count l' = p_lcount p)).
    { intros t'. unfold list_init in *. destruct (Z.eqb_spec (p_ltag p) LIST_SIZE_COMPOSITE) as [T|T].
      - destruct (read_ptr (l_seg l) (p_target p pos)) as [tag|] eqn:R; [|discriminate]. cbn [bind].
        eexists. split; [reflexivity|]. cbn. repeat split; try reflexivity; try lia; intros X; congruence.
      - eexists. split; [reflexivity|]. cbn. repeat split; reflexivity. }
    destruct (G (l_it l)) as (l0 & E0 & _ & _ & A & B & C). rewrite E in E0. apply ok_inj in E0. subst l0.
    destruct (G t) as (l' & E' & S' & T' & _). exists l'. rewrite A, B.
    assert (E2 : list_init (l_seg l) (p_target p pos) (p_ltag p) (l_count l) t = Ok l').
    { unfold list_init in *. destruct (Z.eqb_spec (p_ltag p) LIST_SIZE_COMPOSITE) as [T|T]; [exact E'|]. now rewrite (C T). }
    split; [exact E2|]. split; [|exact T']. left. exists p, pos. rewrite S', T'. auto.
  Qed.

  Lemma tag_which c d vs t : obj_den c d vs -> v_prim d 0 Fh = value_tag t -> which c (Some 0) = Ok (value_tag t).
  Proof. intros O T. unfold which, o_which. rewrite (o_read_primitive_spec c d vs (0 * 2) Fh O) by (cbn; lia). change (0 * 2) with 0. now rewrite T. Qed.
  Lemma tag_ensure c d vs t f : obj_den c d vs -> v_prim d 0 Fh = value_tag t -> f_disc f = Some (value_tag t) ->
    ensure_union c (Some 0) f = Ok tt.
  Proof.
    intros O T F. unfold ensure_union, o_ensure_union. rewrite F. unfold o_which.
    rewrite (o_read_primitive_spec c d vs (0 * 2) Fh O) by (cbn; lia). cbn [bind]. change (0 * 2) with 0. now rewrite T, Z.eqb_refl.
  Qed.

  Lemma pyobj_field c d vs t i f : obj_den c d vs -> v_prim d 0 Fh = value_tag t ->
    nth_error val_fields i = Some f -> value_tag t = Z.of_nat i -> (i < 19)%nat -> f_disc f = Some (value_tag t) ->
    as_pyobj c = match f with FSlot _ _ _ ft o _ df => read_slot c ft o df | _ => Err TypeError end.
  Proof.
    intros O T N V L F. unfold as_pyobj. rewrite (tag_which c d vs t O T). cbn [bind].
    assert (G : tuple_get val_fields (value_tag t) = Ok f).
    { unfold tuple_get. rewrite V. replace (Z.of_nat i <? 0) with false by (symmetry; lia).
      change (blen val_fields) with 19. replace ((Z.of_nat i <? 0) || (19 <=? Z.of_nat i)) with false by (symmetry; lia).
      now rewrite Nat2Z.id, N. }
    rewrite G. unfold get_slot. destruct f; [|reflexivity]. rewrite (tag_ensure c d vs t _ O T F). reflexivity.
  Qed.

  (** What is needed for the constant [c] *)
  Definition usable (fuel : nat) (raw : bytes) (c : cconst) (vs : list value) : Prop :=
    match cc_type c with
    | SStruct r =>
        class_visible I locals globals r /\
        (on (cc_opts c) /\ reflection_visible locals globals (o_seg (cc_value c)) \/
         off (cc_opts c) /\ compact_fits fuel raw (cc_value c) (v_ptr vs 0))
    | SList t =>
        on (cc_opts c) /\ reflection_visible locals globals (o_seg (cc_value c)) /\
        items_visible pyx I locals globals t /\ item_of (text_type (cc_opts c)) t <> None
    | _ => True
    end.

  Lemma finite_evals s : finite_text s -> evals pyx I sizes locals globals s (Ok (VFloat s)).
  Proof.
    intros [R|(t & -> & R)].
    - exact (ev_ok pyx I sizes locals globals s _ R).
    - exact (ev_ok pyx I sizes locals globals _ _ R).
  Qed.

  Lemma const_evals fuel raw fp c d vs :
    obj_den (cc_value c) d vs -> carries fp d vs (cc_type c) -> usable fuel raw c vs ->
    exists text v, emit_const fuel fp pyx c = Ok text /\ evals pyx I sizes locals globals text (Ok v) /\
      is_value sizes fp (text_type (cc_opts c)) d vs (cc_type c) v.
  Proof.
    intros O (T & K) U. unfold emit_const, usable in *.
    assert (P : forall i f, nth_error val_fields i = Some f -> value_tag (cc_type c) = Z.of_nat i -> (i < 19)%nat ->
              f_disc f = Some (value_tag (cc_type c)) ->
              as_pyobj (cc_value c) = match f with FSlot _ _ _ ft o _ df => read_slot (cc_value c) ft o df | _ => Err TypeError end).
    { intros i f. apply (pyobj_field (cc_value c) d vs). exact O. exact T. }
    assert (Q : forall off' f, 0 <= off' -> off' mod fsize f = 0 -> o_read_primitive (cc_value c) off' f = Ok (v_prim d off' f)).
    { intros off' f H1 H2. exact (o_read_primitive_spec _ d vs off' f O H1 H2). }
    destruct (cc_type c) as [| |f| | | | |t|r|r| |] eqn:Ty.
    - (* void *) rewrite (P 0%nat _ eq_refl eq_refl ltac:(lia) eq_refl). cbn [read_slot bind py_repr].
      eexists _, _. split; [reflexivity|]. split; [|constructor].
      apply denotes_evals. exists (EName (lit "None")). split; [reflexivity|]. split; [now constructor|reflexivity].
    - (* bool *) rewrite (P 1%nat _ eq_refl eq_refl ltac:(lia) eq_refl). cbn [read_slot].
      rewrite (o_read_bit_spec _ d vs (16 / 8) (Z.shiftl 1 (16 mod 8)) O ltac:(lia)). cbn [bind negb Z.eqb py_repr].
      eexists _, _. split; [reflexivity|]. split; [|constructor].
      change (16 / 8) with 2. change (Z.shiftl 1 (16 mod 8)) with 1.
      replace (negb (Z.land (v_prim d 2 FB) 1 =? 0)) with (Z.testbit (v_prim d 2 FB) 0).
      + apply denotes_evals. destruct (Z.testbit (v_prim d 2 FB) 0).
        * exists (EName (lit "True")). split; [reflexivity|]. split; [now constructor|reflexivity].
        * exists (EName (lit "False")). split; [reflexivity|]. split; [now constructor|reflexivity].
      + change 1 with (Z.ones 1). rewrite Z.land_ones, Z.bit0_odd by lia. change (2 ^ 1) with 2.
        rewrite Zmod_odd. destruct (Z.odd (v_prim d 2 FB)); reflexivity.
    - (* integers *)
      assert (G : exists z, as_pyobj (cc_value c) = Ok (GInt z) /\ is_value sizes fp (text_type (cc_opts c)) d vs (SInt f) (VInt z)).
      { destruct f.
        1: rewrite (P 2%nat _ eq_refl eq_refl ltac:(lia) eq_refl).
        2: rewrite (P 6%nat _ eq_refl eq_refl ltac:(lia) eq_refl).
        3: rewrite (P 3%nat _ eq_refl eq_refl ltac:(lia) eq_refl).
        4: rewrite (P 7%nat _ eq_refl eq_refl ltac:(lia) eq_refl).
        5: rewrite (P 4%nat _ eq_refl eq_refl ltac:(lia) eq_refl).
        6: rewrite (P 8%nat _ eq_refl eq_refl ltac:(lia) eq_refl).
        7: rewrite (P 5%nat _ eq_refl eq_refl ltac:(lia) eq_refl).
        8: rewrite (P 9%nat _ eq_refl eq_refl ltac:(lia) eq_refl).
        all: cbn [read_slot]; rewrite Q by (cbn; lia); cbn [bind negb Z.eqb fsize Z.mul];
             eexists; split; [reflexivity|]; first [now apply iv_int8|now apply iv_int]. }
      destruct G as (z & -> & V). cbn [bind py_repr]. eexists _, _. split; [reflexivity|]. split; [|exact V].
      apply denotes_evals, int_denotes.
    - (* float32 *) rewrite (P 10%nat _ eq_refl eq_refl ltac:(lia) eq_refl). cbn [read_slot]. rewrite Q by (cbn; lia).
      cbn [bind negb Z.eqb py_repr Z.mul]. eexists _, _. split; [reflexivity|]. split; [|constructor]. now apply finite_evals.
    - (* float64 *) rewrite (P 11%nat _ eq_refl eq_refl ltac:(lia) eq_refl). cbn [read_slot]. rewrite Q by (cbn; lia).
      cbn [bind negb Z.eqb py_repr Z.mul]. eexists _, _. split; [reflexivity|]. split; [|constructor]. now apply finite_evals.
    - (* text *) rewrite (P 12%nat _ eq_refl eq_refl ltac:(lia) eq_refl). cbn [read_slot]. change (0 * 8) with (8 * 0).
      destruct K as [K|(n & b & K & L)].
      + rewrite (o_read_data_spec _ d vs 0 None (-1) (Ok None) O ltac:(lia)) by (rewrite K; reflexivity). cbn [bind py_repr].
        eexists _, _. split; [reflexivity|]. split; [|now apply iv_text_null].
        apply denotes_evals. exists (EName (lit "None")). split; [reflexivity|]. split; [now constructor|reflexivity].
      + rewrite (o_read_data_spec _ d vs 0 None (-1) (Ok (Some (sub b 0 (n - 1)))) O ltac:(lia)).
        2: { rewrite K. cbn [vbytes]. replace ((0 <=? n + -1) && (-1 <=? 0)) with true by (symmetry; lia). reflexivity. }
        cbn [bind py_repr]. eexists _, _. split; [reflexivity|]. split; [|exact (iv_text sizes fp _ d vs n b K L)]. apply denotes_evals, bytes_denotes.
    - (* data *) rewrite (P 13%nat _ eq_refl eq_refl ltac:(lia) eq_refl). cbn [read_slot]. change (0 * 8) with (8 * 0).
      destruct K as [K|(n & b & K)].
      + rewrite (o_read_data_spec _ d vs 0 None 0 (Ok None) O ltac:(lia)) by (rewrite K; reflexivity). cbn [bind py_repr].
        eexists _, _. split; [reflexivity|]. split; [|now apply iv_data_null].
        apply denotes_evals. exists (EName (lit "None")). split; [reflexivity|]. split; [now constructor|reflexivity].
      + assert (Ln : 0 <= n).
        { pose proof (o_read_list_spec _ d vs 0 ITVoid O ltac:(lia)) as X. rewrite K in X. destruct X as (l & _ & LD & _).
          exact (vcount_nonneg _ _ LD). }
        rewrite (o_read_data_spec _ d vs 0 None 0 (Ok (Some (sub b 0 n))) O ltac:(lia)).
        2: { rewrite K. cbn [vbytes]. rewrite Z.add_0_r. replace ((0 <=? n) && (0 <=? 0)) with true by (symmetry; lia). reflexivity. }
        cbn [bind py_repr]. eexists _, _. split; [reflexivity|]. split; [|exact (iv_data sizes fp _ d vs n b K)]. apply denotes_evals, bytes_denotes.
    - (* list *)
      destruct U as ((N1 & N2) & R & V & Io).
      unfold opt_bool. replace (include_reflection_data (cc_opts c) =? bool_notset) with false by (symmetry; lia).
      replace (include_reflection_data (cc_opts c) =? 0) with false by (symmetry; lia). cbn [bind negb].
      unfold value_field. change (nth_error val_fields 14) with (Some (FSlot EmptyString 0 (Some 14) TAny 0 false 0)). cbn [get_slot].
      rewrite (tag_ensure _ d vs (SList t) _ O T) by reflexivity. cbn [bind read_slot]. rewrite (has_spec _ d vs 0 O ltac:(lia)).
      pose proof (o_read_list_spec _ d vs 0 ITVoid O ltac:(lia)) as X.
      destruct (item_of (text_type (cc_opts c)) t) as [j|] eqn:Ej; [|congruence].
      destruct (item_type_denotes _ t j Ej V) as (it & Eit & Dit).
      assert (Nv : v_ptr vs 0 <> VNull) by (destruct (v_ptr vs 0); congruence || contradiction).
      assert (X' : exists l, o_read_list (cc_value c) (8 * 0) ITVoid = Ok (Some l) /\ lobj_den l (v_ptr vs 0) /\ l_seg l = o_seg (cc_value c)).
      { destruct (v_ptr vs 0); try contradiction; destruct X as (l & X1 & X2 & X3 & _); eauto. }
      clear X. destruct X' as (l & El & LD & Sl).
      replace (match v_ptr vs 0 with VNull => false | _ => true end) with true by (destruct (v_ptr vs 0); congruence).
      cbn [bind]. change (0 * 8) with (8 * 0). rewrite El. cbn [bind]. rewrite Eit. cbn [bind].
      destruct (list_again l (v_ptr vs 0) (model_item sizes j) LD Nv) as (l' & El' & LD' & It').
      eexists _, (VListO l' j). split; [reflexivity|]. split.
      + apply denotes_evals, denotes_c_d.
        replace (lit "_List.from_buffer(" ++ refl_seg ++ lit ", " ++ dec (l_off l) ++ lit ", " ++ dec (l_stag l) ++ lit ", " ++ dec (l_count l) ++ lit ", " ++ it ++ lit ")")
          with ((lit "_List" ++ [46] ++ lit "from_buffer") ++ [40] ++ join_with comma [refl_seg; dec (l_off l); dec (l_stag l); dec (l_count l); it] ++ [41])
          by (cbn [join_with]; rewrite <- !app_assoc; reflexivity).
        apply (call_denotes _ VListFromBuffer _ [VSeg (l_seg l); VInt (l_off l); VInt (l_stag l); VInt (l_count l); VItem j]).
        * apply (attr_denotes (lit "_List") _ VListCls); [apply header_item; [destruct pyx|]; reflexivity|reflexivity|reflexivity].
        * rewrite Sl. repeat (constructor; [first [now apply denotes_c_d, refl_denotes|now apply denotes_c_d|apply int_denotes]|]). constructor.
        * cbn [call]. now rewrite El'.
      + now apply iv_list.
    - (* enum *) rewrite (P 15%nat _ eq_refl eq_refl ltac:(lia) eq_refl). cbn [read_slot]. rewrite Q by (cbn; lia).
      cbn [bind negb Z.eqb py_repr fsize Z.mul]. eexists _, _. split; [reflexivity|]. split; [|constructor]. apply denotes_evals, int_denotes.
    - (* struct *)
      destruct K as (sd & svs & K). destruct U as (Vc & R).
      unfold value_field. change (nth_error val_fields 16) with (Some (FSlot EmptyString 0 (Some 16) TAny 0 false 0)). cbn [get_slot].
      rewrite (tag_ensure _ d vs (SStruct r) _ O T) by reflexivity. cbn [bind read_slot]. rewrite (has_spec _ d vs 0 O ltac:(lia)), K.
      cbn [bind]. change (0 * 8) with (8 * 0).
      pose proof (o_read_struct_spec _ d vs 0 O ltac:(lia)) as X. rewrite K in X. destruct X as (s & Es & Os & Ss). rewrite Es. cbn [bind].
      unfold opt_bool. destruct R as [((N1 & N2) & R)|(N & (B & Re & L & Sz & Dp))].
      + replace (include_reflection_data (cc_opts c) =? bool_notset) with false by (symmetry; lia).
        replace (include_reflection_data (cc_opts c) =? 0) with false by (symmetry; lia). cbn [bind negb].
        eexists _, _. split; [reflexivity|]. split; [|exact (iv_struct sizes fp _ d vs r sd svs s K Os)].
        apply denotes_evals, denotes_c_d. apply (declare_denotes _ (CUser r) s _); [now apply class_denotes|exact (init_ok _ _ _ Os)|].
        rewrite Ss. now apply refl_denotes.
      + rewrite N. cbn [Z.eqb bool_notset negb bind].
        assert (A : aligned s) by (apply (reach_aligned raw s B); apply (ro_field raw (cc_value c) 0 s Re Es)).
        rewrite K in L, Sz, Dp. destruct (compact_den s sd svs fuel Os A L Sz Dp) as (s' & E' & O' & _). rewrite E'. cbn [bind].
        eexists _, _. split; [reflexivity|]. split; [|exact (iv_struct sizes fp _ d vs r sd svs s' K O')].
        apply denotes_evals, denotes_c_d. apply (declare_denotes _ (CUser r) s' _); [now apply class_denotes|exact (init_ok _ _ _ O')|exact Logic.I].
    - contradiction.
    - contradiction.
  Qed.
End env.
