(** Running the declarations of a module. *)
From Coq Require Import Strings.String.
From Verif Require FloatBits.
From Verif Require Import Base BaseFacts Spec CopyList Case CaseFacts Loader List PyExpr Ctor PySyntax PySyntaxFacts PyPrint GenText GenTextFacts
  ClassText ReprText KeyText TextSpec ClassSpec ClassFacts PyModule PyModuleFacts ModuleText ModuleTextFacts ModuleRead PyModuleRun ModuleRunFacts ModuleRun2 ModuleSpec.
From Coq Require Import Lists.List Permutation.
Local Notation length := Datatypes.length.
Local Open Scope string_scope.
Local Open Scope list_scope.
Local Open Scope Z_scope.

Definition enum_attrs (n : str) (id : option Z) (items : list str) : env :=
  [(lit "_new", VFun (Some (lit "staticmethod")) [(lit "x", None)] [qReturn (xApp (xVar n) [xVar (lit "x")] [])]);
   (lit "__members__", VTup (map VStr items)); (lit "__capnpy_id__", match id with Some z => VInt z | None => VNone end)].
Definition enum_cls (n : str) (id : option Z) (items : list str) (i : nat) : pycls :=
  mkpc n (ext ["capnpy"; "enum"] "BaseEnum") (member_attrs i (map VStr items) ++ enum_attrs n id items).
Definition struct_cls (s : struct_decl) : pycls := mkpc (sd_name s) (ext ["capnpy"; "struct_"] "Struct") [(lit "__name__", VStr (sd_dotname s))].

Lemma all_strs l : forallb is_str (map VStr l) = true. Proof. induction l; [reflexivity|assumption]. Qed.
Lemma not_needed n m v : ~ In n needed_names -> In (m, v) needed -> str_eqb n (lit m) = false.
Proof.
  intros N I. destruct (str_eqb n (lit m)) eqn:E; [|reflexivity]. apply str_eqb_spec in E. subst n. exfalso. apply N. apply in_map_iff. exists (m, v). split; [reflexivity|exact I].
Qed.
Lemma look_needed g n v : runtime_ok g -> In (n, v) needed -> look [] g (lit n) = Ok v.
Proof. intros R I. apply look_global, R, I. Qed.
Ltac need := cbn [In needed]; tauto.
Lemma runtime_one n v g : ~ In n needed_names -> runtime_ok g -> runtime_ok ((n, v) :: g).
Proof. intros N R. apply (runtime_new [(n, v)]); [|exact R]. intros m [<-|[]]. exact N. Qed.

Lemma enum_run version n id items g H : runtime_ok g -> ~ In n needed_names ->
  exec version (enum_ast n id items) (mkmst g H) = Ok (mkmst ((n, VCls (length H)) :: g) (H ++ [enum_cls n id items (length H)])).
Proof.
  intros R N. unfold enum_ast. cbn [exec exec_item m_globals m_heap]. rewrite (look_needed g "_BaseEnum" (ext ["capnpy"; "enum"] "BaseEnum") R ltac:(need)).
  cbn [bind]. unfold enum_body, set. cbn [class_body class_step].
  assert (E1 : ev [] g match id with Some z => num z | None => xConst CNone end = Ok (match id with Some z => VInt z | None => VNone end)) by (destruct id; [apply ev_num|reflexivity]).
  rewrite E1. cbn [bind class_body class_step]. rewrite ev_strs. cbn [bind class_body class_step m_globals m_heap].
  set (g' := (n, VCls (length H)) :: g). assert (R' : runtime_ok g') by now apply runtime_one.
  rewrite (look_needed g' "_fill_enum" (ext ["capnpy"; "enum"] "fill_enum") R' ltac:(need)). cbn [bind].
  change (ext_is (ext ["capnpy"; "enum"] "fill_enum") ["capnpy"; "enum"] "fill_enum") with true. cbn iota. cbn [ev].
  assert (L : look [] g' n = Ok (VCls (length H))) by (apply look_global; unfold g'; cbn [get]; now rewrite str_eqb_refl).
  rewrite L. cbn [bind]. unfold fill_enum. cbn [m_heap]. rewrite nth_end. cbn [pc_attrs].
  change (get [(lit "_new", _); (lit "__members__", VTup (map VStr items)); (lit "__capnpy_id__", _)] (lit "__members__")) with (Some (VTup (map VStr items))).
  cbn iota. rewrite all_strs. unfold set_attrs. cbn [m_globals m_heap]. rewrite change_end. reflexivity.
Qed.
Lemma struct_decl_run version s g H : runtime_ok g -> ~ In (sd_name s) needed_names -> ~ In (tag_name s) needed_names ->
  exists B C, exec version (struct_decl_ast s) (mkmst g H) = Ok (mkmst (B ++ g) (H ++ C)) /\
    B = match sd_items s with [] => [] | _ => [(tag_name s, VCls (S (length H)))] end ++ [(sd_name s, VCls (length H))] /\
    C = struct_cls s :: match sd_items s with [] => [] | items => [enum_cls (tag_name s) None items (S (length H))] end.
Proof.
  intros R N T. eexists _, _. split; [|split; reflexivity]. unfold struct_decl_ast. cbn [app exec exec_item m_globals m_heap].
  rewrite (look_needed g "_Struct" (ext ["capnpy"; "struct_"] "Struct") R ltac:(need)). cbn [bind class_body class_step m_globals m_heap].
  set (g' := (sd_name s, VCls (length H)) :: g). assert (R' : runtime_ok g') by now apply runtime_one.
  assert (L : look [] g' (sd_name s) = Ok (VCls (length H))) by (apply look_global; unfold g'; cbn [get]; now rewrite str_eqb_refl).
  rewrite L. cbn [bind ev]. unfold set_attrs. cbn [m_globals m_heap]. rewrite change_end.
  change (add_attrs [(lit "__name__", VStr (sd_dotname s))] {| pc_name := sd_name s; pc_base := ext ["capnpy"; "struct_"] "Struct"; pc_attrs := [] |}) with (struct_cls s).
  destruct (sd_items s) as [|x l]; [reflexivity|]. rewrite enum_run by assumption. rewrite app_length. cbn [length app]. rewrite <- app_assoc. cbn [app].
  replace (length H + 1)%nat with (S (length H)) by lia. reflexivity.
Qed.
Lemma targets_run g l : forall loc, class_body g loc (map (fun p : string * bool => qSet (tOne (lit "targets_" ++ lit (fst p))) (xConst (if snd p then CTrue else CFalse))) l) =
  Ok (rev (map (fun p => (lit "targets_" ++ lit (fst p), VBool (snd p))) l) ++ loc).
Proof.
  induction l as [|[t b] l IH]; intros loc; [reflexivity|]. cbn [map class_body class_step fst snd]. replace (ev loc g (xConst (if b then CTrue else CFalse))) with (Ok (VBool b)) by (destruct b; reflexivity).
  cbn [bind]. rewrite IH. cbn [rev]. now rewrite <- app_assoc.
Qed.
Definition ann_attrs (id : Z) (ts : list bool) : env := rev (map (fun p => (lit "targets_" ++ lit (fst p), VBool (snd p))) (combine annotation_targets ts)) ++ [(lit "__capnpy_id__", VInt id)].
Lemma ann_run version n id ts g H : exists v, exec version [mClass [] n (lit "object") (ann_body id ts)] (mkmst g H) = Ok (mkmst ((n, VCls (length H)) :: g) (H ++ [mkpc n v (ann_attrs id ts)])).
Proof.
  cbn [exec exec_item m_globals m_heap]. assert (L : exists v, look [] g (lit "object") = Ok v).
  { unfold look. cbn [get]. destruct (get g (lit "object")) as [v|]; [eauto|]. eexists. vm_compute. reflexivity. }
  destruct L as (v & L). rewrite L. cbn [bind]. unfold ann_body. cbn [class_body class_step ev bind]. rewrite targets_run. exists v. reflexivity.
Qed.

(** ** What a declaration leaves *)
Definition tag_facts (st : mst) (s : struct_decl) : Prop :=
  sd_items s <> [] -> exists j, class_is st (tag_name s) j (enum_cls (tag_name s) None (sd_items s) j).
Definition decl_facts (st : mst) (n : mnode) : Prop :=
  match n with
  | NStruct s _ => (exists i, class_is st (sd_name s) i (struct_cls s)) /\ tag_facts st s
  | NEnum _ n id items => exists i, class_is st n i (enum_cls n (Some id) items i) /\ get (m_globals st) (item_name n) = Some (VItem (lit "EnumItemType") i)
  | NConst _ _ => True
  | NAnn n id ts => exists i v, class_is st n i (mkpc n v (ann_attrs id ts))
  end.
(** the names of a node in the namespace; the names of the classes among them *)
Lemma class_is_mono g H g' H' n i c : class_is (mkmst g H) n i c -> get g' n = get g n -> (nth_error H i = Some c -> nth_error H' i = Some c) -> class_is (mkmst g' H') n i c.
Proof. intros (A & B) E F. split; [cbn in *; congruence|cbn in *; auto]. Qed.
Lemma decl_mono g H g' H' n : decl_facts (mkmst g H) n -> (forall x, In x (module_names n) -> get g' x = get g x) ->
  (forall i c, In (pc_name c) (module_names n) -> nth_error H i = Some c -> nth_error H' i = Some c) -> decl_facts (mkmst g' H') n.
Proof.
  intros D G K. destruct n as [s ch|short n id items|n v|n id ts]; cbn [decl_facts module_names] in *.
  - destruct D as ((i & C) & T). split.
    + exists i. eapply class_is_mono; [exact C|apply G; now left|apply K; now left].
    + intros Ne. destruct (T Ne) as (j & C2). assert (I : In (tag_name s) (sd_name s :: match sd_items s with [] => [] | _ :: _ => [tag_name s] end ++ [item_name (sd_name s)])).
      { right. apply in_or_app. left. destruct (sd_items s); [contradiction|now left]. }
      exists j. eapply class_is_mono; [exact C2|apply G, I|apply K, I].
  - destruct D as (i & C & E). exists i. split.
    + eapply class_is_mono; [exact C|apply G; now left|apply K; now left].
    + cbn [m_globals] in *. rewrite G; [exact E|right; now left].
  - exact Logic.I.
  - destruct D as (i & v & C). exists i, v. eapply class_is_mono; [exact C|apply G; now left|apply K; now left].
Qed.

Lemma decl_run version n g H : runtime_ok g -> (forall x, In x (module_names n) -> ~ In x needed_names) -> NoDup (module_names n) ->
  exists B C, exec version (decl_ast n) (mkmst g H) = Ok (mkmst (B ++ g) (H ++ C)) /\ incl (keys B) (module_names n) /\ decl_facts (mkmst (B ++ g) (H ++ C)) n.
Proof.
  intros R N Nd. destruct n as [s ch|short n id items|n v|n id ts]; cbn [decl_ast module_names decl_facts] in *.
  - assert (Nt : ~ In (tag_name s) needed_names \/ sd_items s = []).
    { destruct (sd_items s); [now right|left]. apply N. right. now left. }
    destruct (sd_items s) as [|x l] eqn:Ei.
    + exists [(sd_name s, VCls (length H))], [struct_cls s]. split; [|split].
      * unfold struct_decl_ast. rewrite Ei, app_nil_r. cbn [exec exec_item m_globals m_heap].
        rewrite (look_needed g "_Struct" (ext ["capnpy"; "struct_"] "Struct") R ltac:(need)). cbn [bind class_body class_step m_globals m_heap].
        set (g' := (sd_name s, VCls (length H)) :: g).
        assert (L : look [] g' (sd_name s) = Ok (VCls (length H))) by (apply look_global; unfold g'; cbn [get]; now rewrite str_eqb_refl).
        rewrite L. cbn [bind ev]. unfold set_attrs. cbn [m_globals m_heap]. rewrite change_end. reflexivity.
      * intros y [<-|[]]. now left.
      * split; [|intros X; contradiction]. exists (length H). split; [cbn; now rewrite str_eqb_refl|]. cbn [m_heap]. apply nth_end.
    + destruct Nt as [Nt|Nt]; [|discriminate Nt]. destruct (struct_decl_run version s g H R ltac:(apply N; now left) Nt) as (B & C & E & EB & EC). rewrite Ei in EB, EC.
      exists B, C. split; [exact E|]. subst B C. split.
      * intros y [<-|[<-|[]]]; [right; now left|now left].
      * inversion Nd as [|? ? Na Nd']; subst. split.
        -- exists (length H). split; cbn [m_globals m_heap].
           ++ cbn [app get]. destruct (str_eqb (tag_name s) (sd_name s)) eqn:Q; [|now rewrite str_eqb_refl]. apply str_eqb_spec in Q. exfalso. apply Na. rewrite <- Q. now left.
           ++ rewrite nth_error_app2 by lia. now rewrite Nat.sub_diag.
        -- intros _. exists (S (length H)). rewrite Ei. split; cbn [m_globals m_heap].
           ++ cbn [app get]. now rewrite str_eqb_refl.
           ++ rewrite nth_error_app2 by lia. now replace (S (length H) - length H)%nat with 1%nat by lia.
  - rewrite exec_app, enum_run by (try apply N; cbn; auto). cbn [bind exec exec_item m_globals m_heap item_ast].
    set (g' := (n, VCls (length H)) :: g). assert (R' : runtime_ok g') by (apply runtime_one; [apply N; now left|exact R]).
    exists [(item_name n, VItem (lit "EnumItemType") (length H)); (n, VCls (length H))], [enum_cls n (Some id) items (length H)]. split; [|split].
    + unfold item_ast. cbn [exec_item m_globals ev]. change (lit "_" ++ lit "EnumItemType") with (lit "_EnumItemType").
      rewrite (look_needed g' "_EnumItemType" (ext ["capnpy"; "list"] "EnumItemType") R' ltac:(need)). cbn [bind].
      change (ext_is (ext ["capnpy"; "list"] "EnumItemType") ["capnpy"; "list"] "EnumItemType" || ext_is (ext ["capnpy"; "list"] "EnumItemType") ["capnpy"; "list"] "StructItemType") with true. cbn iota.
      assert (L : look [] g' n = Ok (VCls (length H))) by (apply look_global; unfold g'; cbn [get]; now rewrite str_eqb_refl).
      rewrite L. reflexivity.
    + intros y [<-|[<-|[]]]; [right; now left|now left].
    + exists (length H). inversion Nd as [|? ? Na Nd']; subst. split; [split|]; cbn [m_globals m_heap].
      * cbn [app get]. destruct (str_eqb (item_name n) n) eqn:Q; [|now rewrite str_eqb_refl]. apply str_eqb_spec in Q. exfalso. apply Na. rewrite Q. now left.
      * apply nth_end.
      * cbn [app get]. now rewrite str_eqb_refl.
  - exists [], []. rewrite app_nil_r. split; [reflexivity|]. split; [intros x []|exact Logic.I].
  - destruct (ann_run version n id ts g H) as (v & E). exists [(n, VCls (length H))], [mkpc n v (ann_attrs id ts)]. split; [exact E|]. split.
    + intros y [<-|[]]. now left.
    + exists (length H), v. split; cbn [m_globals m_heap]; [cbn [app get]; now rewrite str_eqb_refl|apply nth_end].
Qed.
(** all the declarations *)
Lemma NoDup_app {A} (a b : list A) : NoDup (a ++ b) -> NoDup a /\ NoDup b /\ forall x, In x a -> ~ In x b.
Proof.
  induction a as [|x a IH]; intros N; [split; [constructor|split; [exact N|intros y []]]|]. inversion N as [|? ? Nx N']; subst. destruct (IH N') as (Na & Nb & D).
  split; [constructor; [intros I; apply Nx, in_or_app; now left|exact Na]|]. split; [exact Nb|]. intros y [<-|I]; [intros J; apply Nx, in_or_app; now right|now apply D].
Qed.
Lemma decls_run version l : forall g H, runtime_ok g -> (forall x, In x (flat_map module_names l) -> ~ In x needed_names) -> NoDup (flat_map module_names l) ->
  exists B C, exec version (flat_map decl_ast l) (mkmst g H) = Ok (mkmst (B ++ g) (H ++ C)) /\ incl (keys B) (flat_map module_names l) /\
    forall n, In n l -> decl_facts (mkmst (B ++ g) (H ++ C)) n.
Proof.
  induction l as [|n l IH]; intros g H R N Nd.
  - exists [], []. rewrite app_nil_r. split; [reflexivity|]. split; [intros x []|intros x []].
  - cbn [flat_map] in *. destruct (NoDup_app _ _ Nd) as (Nn & Nl & Dj).
    destruct (decl_run version n g H R ltac:(intros x X; apply N, in_or_app; now left) Nn) as (B & C & E & K & D).
    destruct (IH (B ++ g) (H ++ C)) as (B2 & C2 & E2 & K2 & D2); [|intros x X; apply N, in_or_app; now right|exact Nl|].
    { apply runtime_new; [|exact R]. intros x X. apply N, in_or_app. left. now apply K. }
    exists (B2 ++ B), (C ++ C2). rewrite exec_app, E. cbn [bind]. rewrite E2, <- !app_assoc. split; [reflexivity|]. split.
    { intros x X. rewrite keys_app in X. apply in_or_app. apply in_app_or in X. destruct X as [X|X]; [right; now apply K2|left; now apply K]. }
    intros x [<-|I]; [|rewrite <- app_assoc in D2; now apply D2]. eapply decl_mono; [exact D| |].
    + intros y Y. apply get_new. intros Z. apply (Dj y Y). now apply K2.
    + intros i c _ X. rewrite app_assoc, nth_error_app1; [exact X|]. apply nth_error_Some. congruence.
Qed.
