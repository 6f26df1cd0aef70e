(** The text of shortrepr(): what it is read as. *)
From Coq Require Import Strings.String.
From Verif Require PyExprFacts.
From Verif Require Import Base BaseFacts Spec Ptr Segment Builder Copy Struct List CopyList Case CaseFacts Loader Repr ReprSpec ReprParse PyExpr
  Ctor PySyntax PySyntaxFacts PyPrint GenText TextSpec GenTextFacts ReprText.
From Coq Require Import Lists.List.
Local Notation length := Datatypes.length.
Local Open Scope string_scope.
Local Open Scope list_scope.
Local Open Scope Z_scope.

(** ** What it is read as *)
Definition call0 (e : pexp) (n : str) : pexp := xApp (xDot e n) [] [].
Definition value_ast (f : nfield) : pexp :=
  let x := shown_name f in
  match rf_kind (nf_field f) with
  | KGrp _ _ => call0 (xDot self x) (lit "shortrepr")
  | KSlot t _ _ =>
      match t with
      | RFloat32 => xApp (V "_float32_repr") [xDot self x] []
      | RFloat64 => xApp (V "_float64_repr") [xDot self x] []
      | RPrim _ | REnum _ _ _ => xDot self x
      | RBool => call0 (xApp (V "str") [xDot self x] []) (lit "lower")
      | RVoid => xStr (lit "void")
      | RText false => xApp (V "_text_bytes_repr") [call0 self (lit "get_" ++ x)] []
      | RText true => xApp (V "_text_unicode_repr") [call0 self (lit "get_" ++ x)] []
      | RData => xApp (V "_data_repr") [call0 self (lit "get_" ++ x)] []
      | RStruct _ | RList _ => call0 (call0 self (lit "get_" ++ x)) (lit "shortrepr")
      | RAny => xStr (lit "???")
      end
  end.
Definition append_ast (f : nfield) : pexp :=
  meth (V "parts") "append" [xBin BMod (xStr (rf_cap (nf_field f) ++ lit " = %s")) (value_ast f)].
Definition cond_ast (f : nfield) : option pexp :=
  let is_x := call0 self (lit "is_" ++ shown_name f) in
  let has_x := call0 self (lit "has_" ++ shown_name f) in
  match rf_disc (nf_field f), pointer f with
  | Some d, true => Some (xBool OAnd is_x (xBool OOr has_x (xNot (xConst (if d =? 0 then CTrue else CFalse)))))
  | Some d, false => Some is_x
  | None, true => Some has_x
  | None, false => None
  end.
Definition part_ast (f : nfield) : pstmt :=
  match cond_ast f with
  | Some c => qIf c [qExpr (append_ast f)] []
  | None => qExpr (append_ast f)
  end.
Definition repr_ast (fs : list nfield) : list pstmt :=
  set "parts" xNil :: map part_ast fs ++ [qReturn (xBin BMod (xStr (lit "(%s)")) (meth (xStr (lit ", ")) "join" [V "parts"]))].

(** ** Pieces *)
Record texted (l : list piece) (s : str) (e : pexp) : Prop := mktexted {
  t_good : good l;
  t_first : exists t, firstp l = Some t /\ lead t = true;
  t_last : exists t, lastp l = Some t /\ PyPrint.tail t = true;
  t_open : opened (toks_of l) = 0;
  t_prints : prints 3 (toks_of l) e;
  t_flat : flat l = s }.
Lemma texted_wfx e s : wfx e -> (3 <= lvl e)%nat -> sh e = s -> texted (pcs e) s e.
Proof.
  intros W L E. pose proof (wfx_shown e W) as H. destruct (h_last e H) as (t & A & B & _). split; [apply H|apply H|exists t; auto|apply H| |exact E].
  now apply shown_prints.
Qed.
Lemma texted_str s : plain2 s -> texted [tk (34 :: s ++ [34]) (KStr s)] (34 :: s ++ [34]) (xStr s).
Proof.
  intros P. split; [split; [apply Forall_cons; [now apply sp_str2|apply Forall_nil]|reflexivity]|eexists; split; reflexivity|eexists; split; reflexivity|reflexivity| |].
  - apply prints_down with (m := 4%nat); [apply g_str|lia|lia].
  - cbn [flat flat_map spell]. apply app_nil_r.
Qed.

Definition value_pieces (f : nfield) : list piece :=
  match rf_kind (nf_field f) with
  | KSlot RVoid _ _ => [tk (lit """void""") (KStr (lit "void"))]
  | KSlot RAny _ _ => [tk (lit """???""") (KStr (lit "???"))]
  | _ => pcs (value_ast f)
  end.
Lemma shown_ident f : py_name (nf_name f) -> ident (shown_name f) = true /\ name (shown_name f).
Proof.
  intros P. unfold shown_name. destruct (is_nullable (nf_field f)); [|split; apply P].
  assert (N : name (lit "_" ++ nf_name f)) by (apply name_under; [reflexivity|vm_compute; tauto|apply P]). split; [apply N|exact N].
Qed.
Lemma value_texted f : py_name (nf_name f) -> texted (value_pieces f) (value_text f) (value_ast f).
Proof.
  intros P. destruct (shown_ident f P) as (I & N).
  assert (Ng : name (lit "get_" ++ shown_name f)) by (apply name_under; [reflexivity|vm_compute; tauto|exact I]).
  unfold value_pieces, value_text, value_ast, call0. destruct (rf_kind (nf_field f)) as [t off d|c n].
  2:{ apply texted_wfx; [wf|cbn; lia|]. shs. reflexivity. }
  destruct t as [| | | | |cls ms caps|[]| |c|t|].
  all: try (apply texted_wfx; [wf|cbn; lia|shs; reflexivity]).
  - apply (texted_str (lit "void")). intros c H. vm_compute in H. repeat (destruct H as [<-|H]; [repeat split; discriminate|]). destruct H.
  - apply (texted_str (lit "???")). intros c H. vm_compute in H. repeat (destruct H as [<-|H]; [repeat split; discriminate|]). destruct H.
Qed.

Lemma cap_plain s : ident s = true -> plain2 (s ++ lit " = %s").
Proof.
  intros I c H. apply in_app_or in H. destruct H as [H|H].
  - apply ident_chars in I. rewrite forallb_forall in I. apply I in H. repeat split; intros ->; discriminate H.
  - vm_compute in H. repeat (destruct H as [<-|H]; [repeat split; discriminate|]). destruct H.
Qed.

Definition append_pieces (f : nfield) : list piece :=
  [tk (lit "parts") (KName (lit "parts")); kop "."; tk (lit "append") (KName (lit "append"))] ++ [kop "("] ++
  [tk (34 :: (rf_cap (nf_field f) ++ lit " = %s") ++ [34]) (KStr (rf_cap (nf_field f) ++ lit " = %s")); sp; kop "%"; sp] ++ value_pieces f ++ [kop ")"].
Lemma append_good f : py_name (nf_name f) -> ident (rf_cap (nf_field f)) = true -> good (append_pieces f).
Proof.
  intros P C. destruct (value_texted f P) as [G (t & F & L) (u & La & T) O Pr E]. apply cap_plain in C.
  unfold append_pieces. apply good_app; [split; [repeat (apply Forall_cons; [first [apply sp_op; reflexivity|apply sp_name; reflexivity]|]); apply Forall_nil|reflexivity]| |reflexivity].
  apply good_app; [apply kop_good; reflexivity| |reflexivity]. apply good_app.
  - split; [|reflexivity]. apply Forall_cons; [now apply sp_str2|]. spelled_all.
  - apply good_app; [exact G|apply kop_good; reflexivity|]. unfold joint. rewrite La. apply tail_next; [exact T|cbn; tauto].
  - reflexivity.
Qed.
Lemma append_flat f : py_name (nf_name f) -> flat (append_pieces f) = append_text f.
Proof.
  intros P. destruct (value_texted f P) as [_ _ _ _ _ E]. unfold append_pieces, append_text. rewrite !flat_app, E.
  cbn [flat flat_map spell kop]. rewrite !app_nil_r. cbn [app]. rewrite <- !app_assoc. reflexivity.
Qed.
Lemma append_toks f : toks_of (append_pieces f) =
  [KName (lit "parts"); op "."; KName (lit "append")] ++ op "(" :: ([KStr (rf_cap (nf_field f) ++ lit " = %s")] ++ op "%" :: toks_of (value_pieces f)) ++ [op ")"].
Proof. unfold append_pieces. rewrite !toks_app. reflexivity. Qed.
Lemma append_open f : py_name (nf_name f) -> opened (toks_of (append_pieces f)) = 0.
Proof.
  intros P. destruct (value_texted f P) as [_ _ _ O _ _]. rewrite append_toks. cbn [app opened]. rewrite opened_app, O. reflexivity.
Qed.
Lemma append_prints f : py_name (nf_name f) -> prints 4 (toks_of (append_pieces f)) (append_ast f).
Proof.
  intros P. destruct (value_texted f P) as [_ _ _ _ Pr _]. rewrite append_toks. unfold append_ast, meth.
  apply g_app.
  - apply (g_dot [KName (lit "parts")]). apply g_var.
  - apply ga_last. apply prints_down with (m := 2%nat); [|lia|lia]. apply (g_sum BMod); [discriminate| |exact Pr].
    apply prints_down with (m := 4%nat); [apply g_str|lia|lia].
Qed.

Lemma simple_expr ts e : prints 0 ts e -> plain_first ts -> exists n, p_simple n ts = Some (qExpr e).
Proof.
  intros P F. destruct (tests_one ts e [] P) as (n & E); [split; [split; [reflexivity|]; split; [reflexivity|]; split; [reflexivity|]; split; [reflexivity|]; reflexivity|reflexivity]|reflexivity|]. rewrite app_nil_r in E.
  exists n. destruct ts as [|t ts]; [destruct F|]. destruct F as (F1 & F2 & F3 & _). unfold p_simple. cbn [after_word]. rewrite F1, F2, F3, E. reflexivity.
Qed.
Lemma append_plain f : plain_first (toks_of (append_pieces f)).
Proof. rewrite append_toks. cbn. tauto. Qed.
Lemma append_block k f : py_name (nf_name f) -> ident (rf_cap (nf_field f)) = true -> block k [ln k (append_text f)] [qExpr (append_ast f)].
Proof.
  intros P C. rewrite <- (append_flat f P). apply blk_line with (t := KName (lit "parts")); [now apply append_good|reflexivity|now apply append_open|].
  apply parses_expr; [|apply append_plain]. apply prints_down with (m := 4%nat); [now apply append_prints|lia|lia].
Qed.

(** a condition and the statement on its line *)
Lemma one_block k e f s : wfx e -> py_name (nf_name f) -> ident (rf_cap (nf_field f)) = true ->
  s = lit "if " ++ sh e ++ lit ": " ++ append_text f ->
  block k [ln k s] [qIf e [qExpr (append_ast f)] []].
Proof.
  intros W P C ->. pose proof (wfx_shown e W) as H. destruct (h_last e H) as (u & La & T & _).
  replace (lit "if " ++ sh e ++ lit ": " ++ append_text f) with (flat (word_pieces "if" (pcs e ++ kop ":" :: sp :: append_pieces f))).
  2:{ change (flat (word_pieces "if" (pcs e ++ kop ":" :: sp :: append_pieces f))) with (lit "if " ++ flat (pcs e ++ kop ":" :: sp :: append_pieces f)).
      rewrite flat_app. change (flat (kop ":" :: sp :: append_pieces f)) with (lit ": " ++ flat (append_pieces f)). rewrite (append_flat f P). reflexivity. }
  apply blk_line with (t := word "if").
  - apply word_good; try reflexivity. apply good_app; [apply H|apply good_op; [reflexivity|now apply append_good]|]. unfold joint. rewrite La. apply tail_next; [exact T|cbn; tauto].
  - reflexivity.
  - cbn [word_pieces toks_of opened]. rewrite toks_app, opened_app, (h_open e H). cbn [toks_of kop opened]. rewrite (append_open f P). reflexivity.
  - cbn [word_pieces toks_of]. rewrite toks_app. change (toks_of (kop ":" :: sp :: append_pieces f)) with (op ":" :: toks_of (append_pieces f)).
    destruct (simple_expr (toks_of (append_pieces f)) (append_ast f)) as (n & E); [apply prints_down with (m := 4%nat); [now apply append_prints|lia|lia]|apply append_plain|].
    apply parses_if_one with (n0 := n); [apply gb_up, shown_prints; [exact H|lia]| |exact E]. rewrite append_toks. discriminate.
Qed.

(** a condition on two lines *)
Lemma logical_two k j p t l l2 : pieces_ok (tk p t :: l) [] -> pieces_ok l2 [] -> 0 < opened (t :: toks_of l) -> opened (t :: toks_of l) + opened (toks_of l2) = 0 ->
  logical None [at_col k (flat (tk p t :: l)); at_col j (flat l2)] = Some [(k, (t :: toks_of l) ++ toks_of l2)].
Proof.
  intros P P2 O O2. unfold at_col. cbn [logical]. rewrite !lex_spaces, (lex_pieces _ P), (lex_pieces _ P2). change (toks_of (tk p t :: l)) with (t :: toks_of l).
  destruct P as (S & _). destruct (spells_first p t S) as (c & r & E & C1 & _). change (flat (tk p t :: l)) with (p ++ flat l). rewrite E. cbn [app].
  rewrite indent_spaces by exact C1. replace (opened (t :: toks_of l) =? 0) with false by lia. replace (0 <? opened (t :: toks_of l)) with true by lia.
  change (t :: toks_of l ++ toks_of l2) with ((t :: toks_of l) ++ toks_of l2). rewrite opened_app, O2. reflexivity.
Qed.

Lemma two_block k f is_x has_x c s1 s2 : wfx is_x -> dotable is_x = true -> wfx has_x -> dotable has_x = true ->
  py_name (nf_name f) -> ident (rf_cap (nf_field f)) = true ->
  s1 = lit "if " ++ sh is_x ++ lit " and (" ++ sh has_x ++ lit " or" -> s2 = lit "not " ++ const_str c ++ lit "):" ->
  block k [ln k s1; ln (k + 26) s2; ln (k + 4) (append_text f)] [qIf (xBool OAnd is_x (xBool OOr has_x (xNot (xConst c)))) [qExpr (append_ast f)] []].
Proof.
  intros W1 D1 W2 D2 P C -> ->. pose proof (wfx_shown _ W1) as H1. pose proof (wfx_shown _ W2) as H2.
  destruct (h_last _ H1) as (u1 & La1 & T1 & _). destruct (h_last _ H2) as (u2 & La2 & T2 & _). destruct (h_first _ H2) as (t2 & F2 & L2).
  set (l1 := word_pieces "if" (pcs is_x ++ sp :: tk (lit "and") (word "and") :: sp :: [kop "("] ++ pcs has_x ++ sp :: [tk (lit "or") (word "or")])).
  set (l2 := word_pieces "not" ([tk (const_str c) (const_tok c)] ++ [kop ")"; kop ":"])).
  assert (E1 : lit "if " ++ sh is_x ++ lit " and (" ++ sh has_x ++ lit " or" = flat l1).
  { unfold l1. change (flat (word_pieces "if" ?x)) with (lit "if " ++ flat x). rewrite flat_app.
    change (flat (sp :: tk (lit "and") (word "and") :: sp :: [kop "("] ++ pcs has_x ++ sp :: [tk (lit "or") (word "or")])) with (lit " and (" ++ flat (pcs has_x ++ sp :: [tk (lit "or") (word "or")])).
    rewrite flat_app. reflexivity. }
  assert (E2 : lit "not " ++ const_str c ++ lit "):" = flat l2) by reflexivity.
  assert (G1 : good l1).
  { unfold l1. apply word_good; try reflexivity. apply good_app; [apply H1| |apply joint_sp]. apply good_sp.
    change (good ([tk (lit "and") (word "and")] ++ sp :: [kop "("] ++ pcs has_x ++ sp :: [tk (lit "or") (word "or")])).
    apply good_app; [apply kw_good; reflexivity| |apply joint_sp]. apply good_sp. apply good_app; [apply kop_good; reflexivity| |].
    - apply good_app; [apply H2|apply good_sp, kw_good; reflexivity|apply joint_sp].
    - unfold joint. rewrite (firstp_app _ _ _ F2). apply lead_after; [cbn; tauto|exact L2]. }
  assert (G2 : good l2).
  { unfold l2. apply word_good; try reflexivity. split; [apply Forall_cons; [apply const_spells|spelled_all]|destruct c; reflexivity]. }
  assert (K1 : toks_of l1 = word "if" :: toks_of (pcs is_x) ++ word "and" :: op "(" :: toks_of (pcs has_x) ++ [word "or"]).
  { unfold l1, word_pieces. cbn [toks_of]. rewrite toks_app. cbn [toks_of app kop]. rewrite toks_app. reflexivity. }
  assert (K2 : toks_of l2 = [word "not"; const_tok c; op ")"; op ":"]) by reflexivity.
  assert (Lg : logical None [ln k (lit "if " ++ sh is_x ++ lit " and (" ++ sh has_x ++ lit " or"); ln (k + 26) (lit "not " ++ const_str c ++ lit "):")] =
    Some [(k, word "if" :: (toks_of (pcs is_x) ++ word "and" :: op "(" :: (toks_of (pcs has_x) ++ word "or" :: [word "not"; const_tok c]) ++ [op ")"]) ++ [op ":"])]).
  { rewrite E1, E2. pose proof (good_ok _ G1) as Q1. pose proof (good_ok _ G2) as Q2.
    assert (O1 : opened (toks_of l1) = 1) by (rewrite K1; cbn [opened]; rewrite opened_app, (h_open _ H1); cbn [opened]; rewrite opened_app, (h_open _ H2); reflexivity).
    assert (O2 : opened (toks_of l2) = -1) by (rewrite K2; destruct c; reflexivity).
    assert (T : Some [(k, toks_of l1 ++ toks_of l2)] = Some [(k, word "if" :: (toks_of (pcs is_x) ++ word "and" :: op "(" :: (toks_of (pcs has_x) ++ word "or" :: [word "not"; const_tok c]) ++ [op ")"]) ++ [op ":"])]).
    { rewrite K1, K2. f_equal. f_equal. f_equal. cbn [app]. f_equal. rewrite <- !app_assoc. cbn [app]. f_equal. f_equal. f_equal. rewrite <- !app_assoc. reflexivity. }
    rewrite <- T. unfold l1, word_pieces in Q1, O1 |- *. apply logical_two; [exact Q1|exact Q2| |].
    - change (0 < opened (toks_of l1)). change (opened (toks_of l1) = 1) in O1. rewrite O1. reflexivity.
    - change (opened (toks_of l1) + opened (toks_of l2) = 0). change (opened (toks_of l1) = 1) in O1. rewrite O1, O2. reflexivity. }
  destruct (append_block (k + 4) f P C) as (ls & L & Ps & St & _).
  eexists (_ :: ls). split; [exact (logical_app [_; _] [_] _ ls Lg L)|]. split; [|split; [reflexivity|discriminate]].
  cbn [app]. apply parses_if with (k' := (k + 4)%nat); [|lia|now apply St; discriminate|exact Ps].
  apply (gb_bool OAnd); [apply shown_prints; [exact H1|lia]|].
  apply prints_down with (m := 4%nat); [|lia|lia]. apply (g_parb OOr); [apply shown_prints; [exact H2|lia]|].
  apply g_not. apply prints_down with (m := 4%nat); [apply g_const|lia|lia].
Qed.

(** ** The method *)
Definition shown_field (f : nfield) : Prop := py_name (nf_name f) /\ ident (rf_cap (nf_field f)) = true.
Lemma part_block k f : shown_field f -> block k (part_text k f) [part_ast f].
Proof.
  intros (P & C). destruct (shown_ident f P) as (I & N).
  assert (Ni : name (lit "is_" ++ shown_name f)) by (apply name_under; [reflexivity|vm_compute; tauto|exact I]).
  assert (Nh : name (lit "has_" ++ shown_name f)) by (apply name_under; [reflexivity|vm_compute; tauto|exact I]).
  unfold part_text, part_ast, cond_ast, call0. destruct (rf_disc (nf_field f)) as [d|], (pointer f).
  - rewrite !lns_cons, lns_nil, Nat.add_0_r. destruct (d =? 0); apply two_block; try assumption; try reflexivity; try (wf; fail); shs; reflexivity.
  - apply one_block; [wf|exact P|exact C|]. shs. reflexivity.
  - apply one_block; [wf|exact P|exact C|]. shs. reflexivity.
  - now apply append_block.
Qed.
Lemma parts_block k fs : Forall shown_field fs -> block k (flat_map (part_text k) fs) (map part_ast fs).
Proof.
  induction 1 as [|f fs H F IH]; [apply blk_nil|]. cbn [flat_map map]. apply (blk_app k _ _ [_] _); [now apply part_block|exact IH].
Qed.
Lemma repr_block k fs : Forall shown_field fs ->
  block k (repr_text k fs) [qDef None (lit "shortrepr") [(lit "self", None)] (repr_ast fs)].
Proof.
  intros F. unfold repr_text.
  assert (B : block (k + 4) (ln (k + 4) (lit "parts = []") :: flat_map (part_text (k + 4)) fs ++ [ln (k + 4) (lit "return ""(%s)"" % "", "".join(parts)")]) (repr_ast fs)).
  { apply (blk_app _ [_] _ [_] (_ ++ _)).
    - eapply blk_simple with (n := 20%nat); [vm_compute; reflexivity|reflexivity|reflexivity|vm_compute; tauto|vm_compute; reflexivity|discriminate].
    - apply blk_app; [now apply parts_block|].
      eapply blk_simple with (n := 20%nat); [vm_compute; reflexivity|reflexivity|reflexivity|vm_compute; tauto|vm_compute; reflexivity|discriminate]. }
  exact (blk_def k (k + 4) None (lit "shortrepr") [(lit "self", None)] _ (repr_ast fs) Logic.I ltac:(split; reflexivity) ltac:(apply Forall_cons; [split; [split; reflexivity|exact Logic.I]|apply Forall_nil]) Logic.I eq_refl ltac:(lia) ltac:(discriminate) B).
Qed.
