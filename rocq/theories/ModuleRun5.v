(** Running the definitions of a module. *)
From Coq Require Import Strings.String.
From Verif Require FloatBits.
From Verif Require Import Base BaseFacts Spec CopyList Case CaseFacts Loader List PyExpr Ctor PySyntax PySyntaxFacts PyPrint PyRun GenRun GenText GenTextFacts
  ClassText ReprText KeyText TextSpec ClassSpec ReprTextFacts ClassFacts PyModule PyModuleFacts ModuleText ModuleTextFacts ModuleRead PyModuleRun ModuleRunFacts ModuleRun2 ModuleSpec ModuleRun3 ModuleRun4.
From Coq Require Import Lists.List Permutation.
Local Notation length := Datatypes.length.
Local Open Scope string_scope.
Local Open Scope list_scope.
Local Open Scope Z_scope.

Section defs.
  Context (w : world) (fl : Z -> str) (nm : str -> string -> string -> names) (val : str -> pexp).
  Definition ref_val (g : env) (e : pexp) : mval := match ev [] g e with Ok v => v | Err _ => VNone end.
  Definition tag_attrs (g : env) (s : struct_decl) : env :=
    match sn_utag (sd_sn s), sd_items s with
    | Some u, _ :: _ => [(lit "__tag_offset__", VInt (u * 2)); (lit "__tag__", ref_val g (xVar (tag_name s)))]
    | _, _ => []
    end.
  Definition const_attrs (s : struct_decl) : env :=
    [(lit "__static_ptrs_size__", VInt (sn_ps (sd_sn s))); (lit "__static_data_size__", VInt (sn_ds (sd_sn s))); (lit "__capnpy_id__", VInt (sd_id s))].
  Definition ref_attrs (g : env) (ch : list mnode) : env := rev (map (fun p => (fst p, ref_val g (snd p))) (flat_map (ref_ast val true) ch)).
  Definition body_attrs (g : env) (s : struct_decl) (ch : list mnode) (b : list pstmt) : env :=
    rev (flat_map def_attr (b ++ last_ast s)) ++ tag_attrs g s ++ ref_attrs g ch ++ const_attrs s.

  Lemma ref_names ch : map fst (flat_map (ref_ast val true) ch) = flat_map nested_names ch.
  Proof.
    induction ch as [|c ch IH]; [reflexivity|]. cbn [flat_map]. rewrite map_app, IH. f_equal. destruct c as [s cc|short n id items|n v|n id ts]; try reflexivity.
    cbn [ref_ast nested_names andb]. destruct (sd_group s); reflexivity.
  Qed.
  Lemma refs_run g l : forall loc,
    (forall p, In p l -> (exists v, forall loc, ev loc g (snd p) = Ok v) \/ exists n v, snd p = xVar n /\ get g n = Some v /\ ~ In n (map fst l) /\ get loc n = None) ->
    class_body g loc (map assign l) = Ok (rev (map (fun p => (fst p, ref_val g (snd p))) l) ++ loc).
  Proof.
    induction l as [|p l IH]; intros loc H; [reflexivity|]. cbn [map class_body]. unfold assign at 1. cbn [class_step].
    assert (E : ev loc g (snd p) = Ok (ref_val g (snd p))).
    { unfold ref_val. destruct (H p (or_introl eq_refl)) as [(v & E)|(n & v & E & G & _ & L)]; [rewrite !E; reflexivity|]. rewrite E. cbn [ev].
      rewrite (look_outer loc g n v L G), (look_global g n v G). reflexivity. }
    rewrite E. cbn [bind]. rewrite IH; [cbn [map rev]; now rewrite <- app_assoc|].
    intros q I. destruct (H q (or_intror I)) as [X|(n & v & E2 & G & N & L)]; [now left|]. right. exists n, v. split; [exact E2|]. split; [exact G|]. cbn [map In] in N.
    split; [tauto|]. cbn [get]. destruct (str_eqb (fst p) n) eqn:Q; [|exact L]. apply str_eqb_spec in Q. tauto.
  Qed.

  Lemma literal_ev v : value_read val v -> forall g, exists x, forall loc, ev loc g (val v) = Ok x.
  Proof.
    intros (_ & _ & L) g. destruct (val v) as [z|f|st|bb|c|n|e n|f args kws|l| |e|o a b|o a b|e|o a b]; try contradiction; try (eexists; intros loc; reflexivity).
    - destruct c; eexists; intros loc; reflexivity.
    - destruct f; try contradiction; eexists; intros loc; reflexivity.
    - destruct e; eexists; intros loc; reflexivity.
  Qed.
  Lemma literal_ref v : value_read val v -> forall g, ev [] g (val v) = Ok (literal (val v)).
  Proof.
    intros (_ & _ & L) g. destruct (val v) as [z|f|st|bb|c|n|e n|f args kws|l| |e|o a b|o a b|e|o a b]; try contradiction; try reflexivity.
    - destruct c; reflexivity.
    - destruct f; try contradiction; reflexivity.
    - destruct e; reflexivity.
  Qed.
  Lemma literal_constant v g : value_read val v -> constant_is v (Some (ref_val g (val v))).
  Proof.
    intros R. exists (val v). split; [apply R|]. split; [apply R|]. unfold ref_val. now rewrite literal_ref.
  Qed.
  Lemma first_run g s ch : node_readable w fl nm val (NStruct s ch) -> (forall c, In c ch -> node_readable w fl nm val c) -> node_named (NStruct s ch) ->
    (forall x, In x (flat_map module_name ch) -> exists v, get g x = Some v) -> (sd_items s <> [] -> exists v, get g (tag_name s) = Some v) ->
    class_body g [] (first_ast val s ch) = Ok (tag_attrs g s ++ ref_attrs g ch ++ const_attrs s).
  Proof.
    intros R Rc (_ & _ & Ap) Bd Bt. unfold first_ast. rewrite body_app. cbn [class_body class_step ev bind set]. rewrite ev_num. cbn [bind class_body class_step]. rewrite ev_num. cbn [bind class_body].
    change ([(lit "__static_ptrs_size__", VInt (sn_ps (sd_sn s))); (lit "__static_data_size__", VInt (sn_ds (sd_sn s))); (lit "__capnpy_id__", VInt (sd_id s))]) with (const_attrs s).
    assert (Cn : forall n, In n (tag_name s :: flat_map module_name ch) -> get (const_attrs s) n = None).
    { intros n I. apply get_none. intros J. refine (Ap n _ I). apply in_or_app. left. cbn in J. unfold fixed_names. cbn [map In]. tauto. }
    rewrite body_app, refs_run.
    2:{ intros p I. apply in_flat_map in I. destruct I as (c & Ic & I). specialize (Rc c Ic). destruct c as [s' cc|short n id items|n v|n id ts]; cbn [ref_ast andb] in I.
        - destruct (negb (sd_group s')); [|destruct I]. destruct I as [<-|[]]. right. cbn [snd]. assert (J : In (sd_name s') (flat_map module_name ch)) by (apply in_flat_map; exists (NStruct s' cc); split; [exact Ic|now left]).
          destruct (Bd _ J) as (v & G). exists (sd_name s'), v. split; [reflexivity|]. split; [exact G|]. rewrite ref_names. split; [|apply Cn; now right].
          intros K. refine (Ap (sd_name s') _ _); [apply in_or_app; now right|now right].
        - destruct I as [<-|[]]. right. cbn [snd]. assert (J : In n (flat_map module_name ch)) by (apply in_flat_map; exists (NEnum short n id items); split; [exact Ic|now left]).
          destruct (Bd _ J) as (v & G). exists n, v. split; [reflexivity|]. split; [exact G|]. rewrite ref_names. split; [|apply Cn; now right].
          intros K. refine (Ap n _ _); [apply in_or_app; now right|now right].
        - destruct I as [<-|[]]. left. cbn [snd]. apply literal_ev, Rc.
        - destruct I. }
    cbn [bind]. fold (ref_attrs g ch). unfold tag_ast, tag_attrs. destruct (sn_utag (sd_sn s)) as [u|]; [|reflexivity]. destruct (sd_items s) as [|x l] eqn:Ei; [reflexivity|].
    destruct Bt as (v & G); [discriminate|].
    assert (L : get (ref_attrs g ch ++ const_attrs s) (tag_name s) = None).
    { rewrite get_new; [apply Cn; now left|]. unfold ref_attrs. rewrite keys_rev. intros I. apply in_rev in I. unfold keys in I. rewrite map_map in I. cbn [fst] in I.
      change (In (tag_name s) (map fst (flat_map (ref_ast val true) ch))) in I. rewrite ref_names in I. refine (Ap (tag_name s) _ _); [apply in_or_app; now right|now left]. }
    unfold ref_attrs in *. cbn [class_body class_step set ev bind]. rewrite (look_outer _ g (tag_name s) v L G). cbn [bind class_body class_step]. rewrite ev_num. cbn [bind class_body].
    unfold ref_val at 2. cbn [ev]. rewrite (look_global g _ v G). reflexivity.
  Qed.
  Lemma last_defs s : forallb is_def (last_ast s) = true. Proof. unfold last_ast. destruct (sd_key s); reflexivity. Qed.
  Lemma body_run g s ch b : node_readable w fl nm val (NStruct s ch) -> (forall c, In c ch -> node_readable w fl nm val c) -> node_named (NStruct s ch) ->
    (forall x, In x (flat_map module_name ch) -> exists v, get g x = Some v) -> (sd_items s <> [] -> exists v, get g (tag_name s) = Some v) -> forallb is_def b = true ->
    class_body g [] (struct_body val s ch b) = Ok (body_attrs g s ch b).
  Proof.
    intros R Rc N Bd Bt D. unfold struct_body. rewrite body_app, (first_run g s ch R Rc N Bd Bt). cbn [bind]. rewrite body_defs; [reflexivity|]. now rewrite forallb_app, D, last_defs.
  Qed.

  (** no name twice *)
  Definition dec_str := list_eq_dec Z.eq_dec.
  Definition cnt (l : list str) (x : str) : nat := count_occ dec_str l x.
  Definition one (a x : str) : nat := if dec_str a x then 1%nat else 0%nat.
  Lemma cnt_cons a l x : cnt (a :: l) x = (one a x + cnt l x)%nat.
  Proof. unfold cnt, one. cbn [count_occ]. destruct (dec_str a x); reflexivity. Qed.
  Lemma cnt_nil x : cnt [] x = 0%nat. Proof. reflexivity. Qed.
  Lemma cnt_app a b x : cnt (a ++ b) x = (cnt a x + cnt b x)%nat. Proof. apply count_occ_app. Qed.
  Lemma cnt_rev a x : cnt (rev a) x = cnt a x. Proof. apply (proj1 (Permutation_count_occ dec_str _ _)). apply Permutation_sym, Permutation_rev. Qed.
  Lemma cnt_perm a b x : Permutation a b -> cnt a x = cnt b x. Proof. intros P. apply (proj1 (Permutation_count_occ dec_str _ _) P). Qed.
  Lemma names_count g s ch b x : Permutation (defs b) (class_methods (sd_group s) (sd_sn s)) ->
    (cnt (keys (body_attrs g s ch b)) x + one (lit "__name__") x + cnt not_copied x <= cnt (struct_names s ch) x)%nat.
  Proof.
    intros P. unfold body_attrs, struct_names, ref_attrs. rewrite !keys_app, !keys_rev, !cnt_app, !cnt_rev, flat_map_app, keys_app, keys_defs, cnt_app, (cnt_perm _ _ x P).
    assert (E : cnt (keys (map (fun p => (fst p, ref_val g (snd p))) (flat_map (ref_ast val true) ch))) x = cnt (flat_map nested_names ch) x).
    { rewrite <- ref_names. unfold keys. rewrite map_map. reflexivity. }
    rewrite E. unfold fixed_names, not_copied, const_attrs. cbn [map keys fst]. rewrite !cnt_cons, !cnt_nil.
    assert (T : (cnt (keys (tag_attrs g s)) x <= one (lit "__tag__") x + one (lit "__tag_offset__") x)%nat).
    { unfold tag_attrs. destruct (sn_utag (sd_sn s)); [|cbn; lia]. destruct (sd_items s); [cbn; lia|]. cbn [map keys fst]. rewrite !cnt_cons, cnt_nil. lia. }
    assert (La : (cnt (keys (flat_map def_attr (last_ast s))) x <= one (lit "shortrepr") x + one (lit "_key") x)%nat).
    { rewrite keys_defs. unfold last_ast. destruct (sd_key s); cbn [defs flat_map app]; rewrite !cnt_cons, !cnt_nil; lia. }
    lia.
  Qed.
  Lemma names_once g s ch b : Permutation (defs b) (class_methods (sd_group s) (sd_sn s)) -> NoDup (struct_names s ch) ->
    NoDup (keys (body_attrs g s ch b ++ [(lit "__name__", VStr (sd_dotname s))])) /\ copied (body_attrs g s ch b) = body_attrs g s ch b.
  Proof.
    intros P N. pose proof (proj1 (NoDup_count_occ dec_str _) N) as C. split.
    - apply (NoDup_count_occ dec_str). intros x. specialize (C x). pose proof (names_count g s ch b x P) as L. rewrite keys_app. change (cnt (keys (body_attrs g s ch b) ++ [lit "__name__"]) x <= 1)%nat.
      change (cnt (struct_names s ch) x <= 1)%nat in C. rewrite cnt_app, cnt_cons, cnt_nil. lia.
    - unfold copied. assert (G : forall l : env, (forall n, In n (keys l) -> ~ In n not_copied) -> filter (fun p => negb (existsb (str_eqb (fst p)) not_copied)) l = l).
      { induction l as [|[n v] l IH]; intros H; [reflexivity|]. cbn [filter fst]. destruct (existsb (str_eqb n) not_copied) eqn:E.
        - apply existsb_exists in E. destruct E as (m & I & E). apply str_eqb_spec in E. subst m. exfalso. apply (H n); [now left|exact I].
        - cbn [negb]. f_equal. apply IH. intros m I. apply H. now right. }
      apply G. intros n I J. specialize (C n). pose proof (names_count g s ch b n P) as L.
      apply (count_occ_In dec_str) in I. apply (count_occ_In dec_str) in J. change (cnt (keys (body_attrs g s ch b)) n > 0)%nat in I. change (cnt not_copied n > 0)%nat in J.
      change (cnt (struct_names s ch) n <= 1)%nat in C. lia.
  Qed.
End defs.
