(** Lemmas about PyModule.v: reading is deterministic; lines and groups of
    lines that are read as given statements. *)
From Coq Require Import Strings.String.
From Verif Require Import Base BaseFacts Spec Case CaseFacts Loader Repr ReprSpec ReprParse PyExpr PySyntax PySyntaxFacts PyPrint PyModule.
From Verif Require PyExprFacts.
From Coq Require Import Lists.List.
Local Notation length := Datatypes.length.
Local Open Scope string_scope.
Local Open Scope list_scope.
Local Open Scope Z_scope.

Lemma dotted_mono n : forall m ts o, (n <= m)%nat -> p_dotted n ts = Some o -> p_dotted m ts = Some o.
Proof.
  induction n as [|n IH]; intros m ts o L H; [discriminate H|]. destruct m as [|m]; [lia|]. cbn [p_dotted] in *.
  destruct ts as [|[x| | | | | |] r]; try discriminate H. destruct (after_op "." r) as [r'|]; [|exact H].
  destruct (p_dotted n r') as [[l r2]|] eqn:E; [|discriminate H]. rewrite (IH m _ _ ltac:(lia) E). exact H.
Qed.
Lemma as_mono n : forall m ts o, (n <= m)%nat -> p_as n ts = Some o -> p_as m ts = Some o.
Proof.
  induction n as [|n IH]; intros m ts o L H; [discriminate H|]. destruct m as [|m]; [lia|]. cbn [p_as] in *.
  destruct ts as [|[x| | | | | |] r]; try discriminate H. destruct (after_word "as" r) as [[|[y| | | | | |] r1]|]; try discriminate H.
  destruct r1 as [|t r1]; [exact H|]. destruct (after_op "," (t :: r1)) as [r2|]; [|discriminate H].
  destruct (p_as n r2) as [l|] eqn:E; [|discriminate H]. rewrite (IH m _ _ ltac:(lia) E). exact H.
Qed.
Lemma class_mono n m dec ts r o : (n <= m)%nat -> p_class n dec ts r = Some o -> p_class m dec ts r = Some o.
Proof.
  intros L H. unfold p_class in *. destruct ts as [|[c| | | | | |] [|o1 [|[b| | | | | |] [|p [|s one]]]]]; try discriminate H.
  destruct (is_op "(" o1 && is_op ")" p && is_op ":" s); [|discriminate H]. destruct one as [|t one].
  - destruct (p_suite n 0 r) as [x|] eqn:E; [|discriminate H]. rewrite (proj2 (proj2 (proj2 (block_mono n))) m _ _ _ L E). exact H.
  - destruct (p_simple n (t :: one)) as [q|] eqn:E; [|discriminate H]. rewrite (simple_mono _ _ _ _ L E). exact H.
Qed.
Lemma item_mono n m ts r o : (n <= m)%nat -> p_item n ts r = Some o -> p_item m ts r = Some o.
Proof.
  intros L H. unfold p_item in *. destruct (after_op "@" ts) as [d|].
  { destruct (p_dotted n d) as [[path r1]|] eqn:E; [|discriminate H]. rewrite (dotted_mono _ _ _ _ L E).
    destruct r1; [|discriminate H]. destruct r as [|[[|i] t'] r]; try discriminate H. destruct (after_word "class" t') as [t2|]; [|discriminate H].
    now apply class_mono with (n := n). }
  destruct (after_word "class" ts) as [t2|]; [now apply class_mono with (n := n)|].
  destruct (after_word "from" ts) as [t2|].
  { unfold p_import in *. destruct (p_dotted n t2) as [[p r1]|] eqn:E; [|discriminate H]. rewrite (dotted_mono _ _ _ _ L E).
    destruct (after_word "import" r1) as [r2|]; [|discriminate H]. destruct (p_as n r2) as [l|] eqn:E2; [|discriminate H]. rewrite (as_mono _ _ _ _ L E2). exact H. }
  assert (G : forall x, match p_stmt n 0 ts r with Some (q, r) => Some (mStmt q, r) | None => None end = Some x ->
    match p_stmt m 0 ts r with Some (q, r) => Some (mStmt q, r) | None => None end = Some x).
  { intros x X. destruct (p_stmt n 0 ts r) as [[q r']|] eqn:E; [|discriminate X]. rewrite (proj1 (proj2 (block_mono n)) m _ _ _ _ L E). exact X. }
  destruct ts as [|[v| | | | | |] [|d [|[a| | | | | |] [|e x]]]]; try (apply G; exact H).
  destruct (is_op "." d && is_op "=" e); [|apply G; exact H].
  destruct (p_test n x) as [[e' r']|] eqn:E; [|discriminate H]. rewrite (test_mono _ _ _ _ L E). exact H.
Qed.
Lemma module_mono n : forall m ls o, (n <= m)%nat -> p_module n ls = Some o -> p_module m ls = Some o.
Proof.
  induction n as [|n IH]; intros m ls o L H; [discriminate H|]. destruct m as [|m]; [lia|]. cbn [p_module] in *.
  destruct ls as [|[[|i] ts] r]; [exact H| |discriminate H]. destruct (p_item n ts r) as [[s r']|] eqn:E; [|discriminate H].
  rewrite (item_mono n m _ _ _ ltac:(lia) E). destruct (p_module n r') as [l|] eqn:E2; [|discriminate H]. rewrite (IH m _ _ ltac:(lia) E2). exact H.
Qed.
(** the reading of a module is unique *)
Theorem module_unique ls a b : module_as ls a -> module_as ls b -> a = b.
Proof.
  intros (t & n & L & H) (t' & n' & L' & H'). rewrite L in L'. injection L' as <-.
  apply (module_mono n (Nat.max n n')) in H; [|lia]. apply (module_mono n' (Nat.max n n')) in H'; [|lia]. rewrite H in H'. now injection H'.
Qed.

(** ** Groups of lines *)
Definition mparses (ls : list line) (l : list mstmt) : Prop :=
  forall rest l2 n, p_module n rest = Some l2 -> exists m, p_module m (ls ++ rest) = Some (l ++ l2).
Definition mblock (txt : list str) (l : list mstmt) : Prop := exists ls, logical None txt = Some ls /\ mparses ls l.
Lemma mb_module txt l : mblock txt l -> module_as txt l.
Proof. intros (ls & L & P). destruct (P [] [] 1%nat eq_refl) as (m & E). rewrite !app_nil_r in E. exists ls, m. auto. Qed.
Lemma mb_nil : mblock [] [].
Proof. exists []. split; [reflexivity|]. intros rest l2 n H. exists n. exact H. Qed.
Lemma mb_app a b x y : mblock a x -> mblock b y -> mblock (a ++ b) (x ++ y).
Proof.
  intros (ls & L & P) (ls2 & L2 & P2). exists (ls ++ ls2). split; [now apply logical_app|]. intros rest l2 n H.
  destruct (P2 rest l2 n H) as (m & E). destruct (P _ _ m E) as (m' & E'). exists m'. rewrite <- !app_assoc. exact E'.
Qed.
Lemma mb_flat {A} (f : A -> list str) (g : A -> list mstmt) l : (forall x, In x l -> mblock (f x) (g x)) -> mblock (flat_map f l) (flat_map g l).
Proof.
  induction l as [|x l IH]; intros H; [apply mb_nil|]. cbn [flat_map]. apply mb_app; [apply H; now left|apply IH; intros y Y; apply H; now right].
Qed.
Lemma mb_blank k : mblock [at_col k []] [].
Proof.
  exists []. split; [|intros rest l2 n H; exists n; exact H]. cbn [logical]. unfold at_col. rewrite lex_spaces. reflexivity.
Qed.
Lemma mb_comment s : mblock [35 :: s] [].
Proof. exists []. split; [exact (logical_comment 0 s)|]. intros rest l2 n H. exists n. exact H. Qed.

Lemma module_col n rest l : p_module n rest = Some l -> match rest with (i, _) :: _ => (i <= 0)%nat | [] => True end.
Proof. destruct n; [discriminate|]. destruct rest as [|[[|i] ts] r]; cbn; try discriminate; auto. Qed.
Lemma mparses_item ls s : (forall rest l2 n, p_module n rest = Some l2 -> exists t r m, ls ++ rest = (O, t) :: r /\ p_item m t r = Some (s, rest)) -> mparses ls [s].
Proof.
  intros H rest l2 n P. destruct (H rest l2 n P) as (t & r & m & E & I). exists (Datatypes.S (Nat.max n m)). rewrite E. cbn [p_module app].
  rewrite (item_mono m (Nat.max n m) _ _ _ ltac:(lia) I). rewrite (module_mono n (Nat.max n m) _ _ ltac:(lia) P). reflexivity.
Qed.
Lemma mb_line s t ts q n : lex s = Some (t :: ts) -> indent s = O -> opened (t :: ts) = 0 ->
  (forall r, p_item n (t :: ts) r = Some (q, r)) -> mblock [s] [q].
Proof.
  intros L I Op P. exists [(O, t :: ts)]. split; [cbn [logical]; rewrite L, I, Op; reflexivity|].
  apply mparses_item. intros rest l2 m H. exists (t :: ts), rest, n. split; [reflexivity|apply P].
Qed.

(** a statement of PySyntax.v on one line *)
Definition module_head (ts : list token) : Prop :=
  simple_head ts /\ match ts with t :: r => is_word "class" t = false /\ is_word "from" t = false /\
    match r with d :: _ => is_op "." d = false | [] => True end | [] => False end.
Lemma item_simple n ts q r : module_head ts -> p_simple n ts = Some q -> p_item (Datatypes.S n) ts r = Some (mStmt q, r).
Proof.
  intros (H & M) P. destruct ts as [|t ts]; [destruct H|]. destruct H as (H1 & H2 & H3 & H4). destruct M as (M1 & M2 & M3).
  unfold p_item. cbn [after_op after_word]. rewrite H2, M1, M2.
  assert (E : p_stmt (Datatypes.S n) 0 (t :: ts) r = Some (q, r)) by (cbn [p_stmt after_word after_op]; rewrite H1, H2, H3, P; reflexivity).
  destruct t as [v| | | | | |]; try (rewrite E; reflexivity). destruct ts as [|d [|[a| | | | | |] [|e x]]]; try (rewrite E; reflexivity).
  rewrite M3. cbn [andb]. rewrite E. reflexivity.
Qed.
Lemma simple_of ts q : simple_head ts -> parses 0 [(O, ts)] [q] -> exists n, p_simple n ts = Some q.
Proof.
  intros H (_ & P). destruct (P [] [] [] 1%nat Logic.I eq_refl) as (n & E). rewrite app_nil_r in E.
  destruct n as [|n]; [discriminate E|]. cbn [p_block] in E. rewrite Nat.ltb_irrefl in E.
  match type of E with match ?x with _ => _ end = _ => destruct x as [[s r]|] eqn:Es end; [|discriminate E]. destruct n as [|n]; [discriminate Es|]. destruct ts as [|t ts]; [destruct H|].
  destruct H as (H1 & H2 & H3 & _). cbn [p_stmt after_word after_op] in Es. rewrite H1, H2, H3 in Es. cbn iota in Es. exists n.
  destruct (p_simple n (t :: ts)) as [q'|]; [|discriminate Es]. injection Es as Es1 Es2. subst s r. match type of E with match ?x with _ => _ end = _ => change x with (Some ([] : list pstmt, [] : list line)) in E end. injection E as E1. now subst q.
Qed.
Lemma mb_set n e : name n -> wfx e -> mblock [n ++ lit " = " ++ sh e] [mStmt (qSet (tOne n) e)].
Proof.
  intros N W. pose proof (wfx_shown e W) as H. change (n ++ lit " = " ++ sh e) with (flat (set_pieces n "=" e)).
  exists [(O, toks_of (set_pieces n "=" e))]. split.
  - change (flat (set_pieces n "=" e)) with (at_col 0 (flat (set_pieces n "=" e))). apply logical_line; [apply good_ok; now apply set_good|]. cbn. apply H.
  - apply mparses_item. intros rest l2 m P.
    assert (Q : exists n0, p_simple n0 (toks_of (set_pieces n "=" e)) = Some (qSet (tOne n) e)).
    { apply simple_of; [|exact (parses_set 0 n (toks_of (pcs e)) e (shown_prints e 0 H ltac:(lia)))]. repeat split. }
    destruct Q as (n0 & Q). eexists _, rest, (Datatypes.S n0). split; [reflexivity|]. apply item_simple; [|exact Q].
    repeat split.
Qed.
(** a call *)
Lemma mb_call f args kws : name f -> wfx (xApp (xVar f) args kws) -> mblock [sh (xApp (xVar f) args kws)] [mStmt (qExpr (xApp (xVar f) args kws))].
Proof.
  intros N W. set (e := xApp (xVar f) args kws) in *. pose proof (wfx_shown e W) as H.
  assert (F : exists r, pcs e = tk f (KName f) :: kop "(" :: r) by (eexists; reflexivity). destruct F as (r & F).
  exists [(O, toks_of (pcs e))]. split.
  - unfold sh. pose proof (h_good e H) as G. pose proof (h_open e H) as O. rewrite F in *. exact (logical_line 0 f (KName f) _ (good_ok _ G) O).
  - apply mparses_item. intros rest l2 m P.
    assert (Q : exists n0, p_simple n0 (toks_of (pcs e)) = Some (qExpr e)).
    { apply simple_of; [rewrite F; repeat split|exact (parses_expr 0 (toks_of (pcs e)) e (shown_prints e 0 H ltac:(lia)) ltac:(rewrite F; cbn; tauto))]. }
    destruct Q as (n0 & Q). rewrite F in *. eexists _, rest, (Datatypes.S n0). split; [reflexivity|]. apply item_simple; [|exact Q]. repeat split.
Qed.
(** v.a = e *)
Lemma mb_attr v a e : name v -> name a -> wfx e -> mblock [v ++ lit "." ++ a ++ lit " = " ++ sh e] [mAttr v a e].
Proof.
  intros Nv Na W. pose proof (wfx_shown e W) as H.
  assert (G : good ([tk v (KName v)] ++ [kop "."] ++ set_pieces a "=" e)).
  { apply good_app; [now apply name_good| |reflexivity]. apply good_app; [now apply kop_good|now apply set_good|reflexivity]. }
  exists [(O, KName v :: op "." :: toks_of (set_pieces a "=" e))]. split.
  - change (v ++ lit "." ++ a ++ lit " = " ++ sh e) with (at_col 0 (flat ([tk v (KName v)] ++ [kop "."] ++ set_pieces a "=" e))).
    apply logical_line; [now apply good_ok|]. cbn. apply H.
  - apply mparses_item. intros rest l2 m P.
    destruct (test_ok (toks_of (pcs e)) e [] (shown_prints e 0 H ltac:(lia)) ltac:(repeat split)) as (n & T). rewrite app_nil_r in T.
    eexists _, rest, n. split; [reflexivity|]. unfold p_item. cbn [set_pieces toks_of kop after_op after_word is_op is_word].
    change (str_eqb (lit ".") (lit ".") && str_eqb (lit "=") (lit "=")) with true. cbn iota. rewrite T. reflexivity.
Qed.

(** ** Classes *)
Definition dotted (path : list str) : str := join_with (lit ".") path.
Definition dec_lines (path : list str) : list str := match path with [] => [] | _ => [lit "@" ++ dotted path] end.
Definition class_head (c b : str) : str := lit "class " ++ c ++ lit "(" ++ b ++ lit "):".
Fixpoint dots (path : list str) : list piece :=
  match path with
  | [] => []
  | [x] => [tk x (KName x)]
  | x :: r => tk x (KName x) :: kop "." :: dots r
  end.
Lemma dots_flat path : flat (dots path) = dotted path.
Proof.
  induction path as [|x r IH]; [reflexivity|]. destruct r as [|y r]; [cbn; apply app_nil_r|].
  change (dots (x :: y :: r)) with (tk x (KName x) :: kop "." :: dots (y :: r)).
  change (flat (tk x (KName x) :: kop "." :: dots (y :: r))) with (x ++ lit "." ++ flat (dots (y :: r))). rewrite IH. reflexivity.
Qed.
Lemma dots_good path : Forall name path -> good (dots path) /\ (path <> [] -> exists x, firstp (dots path) = Some (KName x)).
Proof.
  induction 1 as [|x r N F (IH & I2)]; [split; [split; [constructor|reflexivity]|contradiction]|]. destruct r as [|y r].
  - split; [now apply name_good|]. intros _. exists x. reflexivity.
  - split; [|intros _; exists x; reflexivity]. change (dots (x :: y :: r)) with ([tk x (KName x)] ++ [kop "."] ++ dots (y :: r)).
    destruct (I2 ltac:(discriminate)) as (y' & Fy).
    apply good_app; [now apply name_good| |reflexivity]. apply good_app; [now apply kop_good|exact IH|]. unfold joint. rewrite Fy. reflexivity.
Qed.
Lemma dots_read path : path <> [] -> exists n, p_dotted n (toks_of (dots path)) = Some (path, []).
Proof.
  induction path as [|x r IH]; [contradiction|]. intros _. destruct r as [|y r]; [exists 1%nat; reflexivity|].
  destruct IH as (n & E); [discriminate|]. exists (Datatypes.S n). change (dots (x :: y :: r)) with (tk x (KName x) :: kop "." :: dots (y :: r)).
  cbn [toks_of kop p_dotted after_op is_op]. change (str_eqb (lit ".") (lit ".")) with true. cbn iota. rewrite E. reflexivity.
Qed.
Lemma dots_open path : opened (toks_of (dots path)) = 0.
Proof. induction path as [|x [|y r] IH]; [reflexivity|reflexivity|]. exact IH. Qed.

Definition class_pieces (c b : str) : list piece := word_pieces "class" [tk c (KName c); kop "("; tk b (KName b); kop ")"; kop ":"].
Lemma class_good c b : name c -> name b -> good (class_pieces c b).
Proof.
  intros (C1 & C2) (B1 & B2). apply word_good; [reflexivity|reflexivity|]. split; [spelled_all|reflexivity].
Qed.
Lemma class_flat c b : flat (class_pieces c b) = class_head c b.
Proof. reflexivity. Qed.
Lemma class_line c b : name c -> name b -> logical None [class_head c b] = Some [(O, toks_of (class_pieces c b))].
Proof.
  intros C B. rewrite <- class_flat. exact (logical_line 0 _ _ _ (good_ok _ (class_good c b C B)) eq_refl).
Qed.
Lemma dec_line path : path <> [] -> Forall name path -> logical None [lit "@" ++ dotted path] = Some [(O, op "@" :: toks_of (dots path))].
Proof.
  intros Ne F. destruct (dots_good path F) as (G & Fi). destruct (Fi Ne) as (x & Fx). rewrite <- dots_flat.
  assert (G2 : good ([kop "@"] ++ dots path)) by (apply good_app; [now apply kop_good|exact G|unfold joint; rewrite Fx; reflexivity]).
  exact (logical_line 0 _ _ _ (good_ok _ G2) (dots_open path)).
Qed.
Lemma mb_class path c b k body l : Forall name path -> name c -> name b -> (0 < k)%nat -> l <> [] -> block k body l ->
  mblock (dec_lines path ++ class_head c b :: body) [mClass path c b l].
Proof.
  intros Fp C B K Ne (ls & L & P & S & _).
  assert (Lc : logical None (class_head c b :: body) = Some ((O, toks_of (class_pieces c b)) :: ls)).
  { exact (logical_app [_] body _ ls (class_line c b C B) L). }
  assert (Pc : forall rest l2 n, p_module n rest = Some l2 -> exists m, p_class m path [KName c; op "("; KName b; op ")"; op ":"] (ls ++ rest) = Some (mClass path c b l, rest)).
  { intros rest l2 n H. destruct (suite_ok 0 k ls l rest K (S Ne) P (module_col _ _ _ H)) as (m & E). exists m.
    cbn [p_class is_op]. change (str_eqb (lit "(") (lit "(") && str_eqb (lit ")") (lit ")") && str_eqb (lit ":") (lit ":")) with true. cbn iota. rewrite E. reflexivity. }
  destruct path as [|x path].
  - exists ((O, toks_of (class_pieces c b)) :: ls). split; [exact Lc|]. apply mparses_item. intros rest l2 n H. destruct (Pc rest l2 n H) as (m & E).
    eexists _, _, m. split; [reflexivity|]. exact E.
  - set (pa := x :: path) in *. exists ((O, op "@" :: toks_of (dots pa)) :: (O, toks_of (class_pieces c b)) :: ls). split.
    + exact (logical_app [_] (class_head c b :: body) _ _ (dec_line pa ltac:(discriminate) Fp) Lc).
    + apply mparses_item. intros rest l2 n H. destruct (Pc rest l2 n H) as (m & E). destruct (dots_read pa ltac:(discriminate)) as (m2 & E2).
      eexists _, _, (Nat.max m m2). split; [reflexivity|]. unfold p_item. cbn [after_op is_op]. change (str_eqb (lit "@") (lit "@")) with true. cbn iota.
      rewrite (dotted_mono m2 (Nat.max m m2) _ _ ltac:(lia) E2). cbn [toks_of class_pieces word_pieces kop after_word is_word].
      change (str_eqb (lit "class") (lit "class")) with true. cbn iota. apply (class_mono m); [lia|exact E].
Qed.
(** class c(b): pass *)
Lemma mb_pass c b : name c -> name b -> mblock [lit "class " ++ c ++ lit "(" ++ b ++ lit "): pass"] [mClass [] c b [qPass]].
Proof.
  intros C B. assert (G : good (class_pieces c b ++ [sp; tk (lit "pass") (word "pass")])).
  { apply good_app; [now apply class_good|apply good_sp; now apply kw_good|reflexivity]. }
  exists [(O, toks_of (class_pieces c b ++ [sp; tk (lit "pass") (word "pass")]))]. split.
  - replace (lit "class " ++ c ++ lit "(" ++ b ++ lit "): pass") with (flat (class_pieces c b ++ [sp; tk (lit "pass") (word "pass")])).
    + exact (logical_line 0 _ _ _ (good_ok _ G) eq_refl).
    + rewrite flat_app, class_flat. unfold class_head. rewrite <- !app_assoc. reflexivity.
  - apply mparses_item. intros rest l2 n H. eexists _, rest, 1%nat. split; [reflexivity|]. reflexivity.
Qed.
