(** Facts about the reader of PySyntax.v: more fuel does not change what is
    read; texts written according to the grammar are read as what was written. *)
From Coq Require Import Strings.String.
From Verif Require Import Base BaseFacts Spec Case CaseFacts Loader Repr ReprSpec ReprParse PyExpr PySyntax.
From Verif Require PyExprFacts.
From Coq Require Import Lists.List.
Local Notation length := Datatypes.length.
Local Open Scope string_scope.
Local Open Scope list_scope.
Local Open Scope Z_scope.

Lemma str_eqb_refl n : str_eqb n n = true. Proof. now apply str_eqb_spec. Qed.

(** ** Fuel *)
Definition mono_at {A B} (f : nat -> A -> option B) (n : nat) : Prop :=
  forall m a b, (n <= m)%nat -> f n a = Some b -> f m a = Some b.

Ltac mono_case :=
  match goal with
  | H : match ?f ?n ?x with _ => _ end = Some _, IH : mono_at ?f ?n |- _ =>
      let E := fresh "E" in destruct (f n x) as [?|] eqn:E; [rewrite (IH _ _ _ ltac:(eassumption) E)|discriminate]
  | H : match ?x with _ => _ end = Some _ |- _ => destruct x eqn:?; try discriminate
  end.

Definition p_trail2 n (p : pexp * list token) := p_trail n (fst p) (snd p).
Lemma exp_mono : forall n,
  mono_at p_test n /\ mono_at p_xor n /\ mono_at p_sum n /\ mono_at p_factor n /\ mono_at p_atom n /\
  mono_at p_trail2 n /\ mono_at p_list n /\ mono_at p_args n /\ mono_at p_not n.
Proof.
  induction n as [|n (I1 & I2 & I3 & I4 & I5 & I6 & I7 & I8 & I9)].
  { repeat split; intros m a b _ H; try discriminate H. }
  assert (I6' : forall m e ts b, (n <= m)%nat -> p_trail n e ts = Some b -> p_trail m e ts = Some b).
  { intros m e ts b L H. exact (I6 m (e, ts) b L H). }
  repeat split; intros m a b L H; (destruct m as [|m]; [lia|]); apply le_S_n in L.
  - cbn [p_test] in H |- *. destruct (p_not n a) as [[e r]|] eqn:E; [|discriminate]. rewrite (I9 _ _ _ L E).
    destruct (bool_op r) as [[o r']|]; [|exact H].
    destruct (p_not n r') as [[e' r'']|] eqn:E'; [|discriminate]. rewrite (I9 _ _ _ L E'). exact H.
  - cbn [p_xor] in H |- *. destruct (p_sum n a) as [[e r]|] eqn:E; [|discriminate]. rewrite (I3 _ _ _ L E).
    destruct (after_op "^" r) as [r'|]; [|exact H].
    destruct (p_sum n r') as [[e' r'']|] eqn:E'; [|discriminate]. rewrite (I3 _ _ _ L E'). exact H.
  - cbn [p_sum] in H |- *. destruct (p_factor n a) as [[e r]|] eqn:E; [|discriminate]. rewrite (I4 _ _ _ L E).
    destruct (sum_op r) as [[o r']|]; [|exact H].
    destruct (p_factor n r') as [[e' r'']|] eqn:E'; [|discriminate]. rewrite (I4 _ _ _ L E'). exact H.
  - cbn [p_factor] in H |- *. destruct (after_op "-" a) as [r|].
    { destruct (p_factor n r) as [[e r']|] eqn:E; [|discriminate]. rewrite (I4 _ _ _ L E). exact H. }
    destruct (p_atom n a) as [[e r]|] eqn:E; [|discriminate]. rewrite (I5 _ _ _ L E). apply I6'; assumption.
  - cbn [p_atom] in H |- *. destruct a as [|[] a]; try exact H. destruct (str_eqb o (lit "(")); [|exact H].
    destruct (p_list n a) as [[[l c] r]|] eqn:E; [|discriminate]. rewrite (I7 _ _ _ L E). exact H.
  - unfold p_trail2 in *. cbn [p_trail] in H |- *. destruct (after_op "." (snd a)) as [r|].
    { destruct r as [|[] r]; try discriminate H. apply I6'; assumption. }
    destruct (after_op "(" (snd a)) as [r|]; [|exact H].
    destruct (p_args n r) as [[[l c] r']|] eqn:E; [|discriminate]. rewrite (I8 _ _ _ L E). apply I6'; assumption.
  - cbn [p_list] in H |- *. destruct (after_op ")" a) as [r|]; [exact H|].
    destruct (p_test n a) as [[e r]|] eqn:E; [|discriminate]. rewrite (I1 _ _ _ L E).
    destruct (after_op "," r) as [r'|]; [|exact H].
    destruct (p_list n r') as [[[l c] r'']|] eqn:E'; [|discriminate]. rewrite (I7 _ _ _ L E'). exact H.
  - cbn [p_args] in H |- *. destruct (after_op ")" a) as [r|]; [exact H|].
    set (key := match a with KName x :: t :: r => if is_op "=" t then Some (x, r) else None | _ => None end) in *.
    clearbody key. set (ts' := match key with Some (_, r) => r | None => a end) in *. clearbody ts'.
    destruct (p_test n ts') as [[e r]|] eqn:E; [|discriminate]. rewrite (I1 _ _ _ L E).
    destruct (after_op "," r) as [r'|]; [|exact H].
    destruct (p_args n r') as [[[l c] r'']|] eqn:E'; [|discriminate]. rewrite (I8 _ _ _ L E'). exact H.
  - cbn [p_not] in H |- *. destruct (after_word "not" a) as [r|].
    { destruct (p_not n r) as [[e r']|] eqn:E; [|discriminate]. rewrite (I9 _ _ _ L E). exact H. }
    destruct (p_xor n a) as [[e r]|] eqn:E; [|discriminate]. rewrite (I2 _ _ _ L E). destruct (cmp_op r) as [[o r']|]; [|exact H].
    destruct (p_xor n r') as [[e' r'']|] eqn:E'; [|discriminate]. rewrite (I2 _ _ _ L E'). exact H.
Qed.

Lemma test_mono n m ts o : (n <= m)%nat -> p_test n ts = Some o -> p_test m ts = Some o.
Proof. intros L H. exact (proj1 (exp_mono n) m ts o L H). Qed.
Lemma xor_mono n m ts o : (n <= m)%nat -> p_xor n ts = Some o -> p_xor m ts = Some o.
Proof. intros L H. exact (proj1 (proj2 (exp_mono n)) m ts o L H). Qed.
Lemma sum_mono n m ts o : (n <= m)%nat -> p_sum n ts = Some o -> p_sum m ts = Some o.
Proof. intros L H. exact (proj1 (proj2 (proj2 (exp_mono n))) m ts o L H). Qed.
Lemma factor_mono n m ts o : (n <= m)%nat -> p_factor n ts = Some o -> p_factor m ts = Some o.
Proof. intros L H. exact (proj1 (proj2 (proj2 (proj2 (exp_mono n)))) m ts o L H). Qed.
Lemma atom_mono n m ts o : (n <= m)%nat -> p_atom n ts = Some o -> p_atom m ts = Some o.
Proof. intros L H. exact (proj1 (proj2 (proj2 (proj2 (proj2 (exp_mono n))))) m ts o L H). Qed.
Lemma trail_mono n m e ts o : (n <= m)%nat -> p_trail n e ts = Some o -> p_trail m e ts = Some o.
Proof. intros L H. exact (proj1 (proj2 (proj2 (proj2 (proj2 (proj2 (exp_mono n)))))) m (e, ts) o L H). Qed.
Lemma list_mono n m ts o : (n <= m)%nat -> p_list n ts = Some o -> p_list m ts = Some o.
Proof. intros L H. exact (proj1 (proj2 (proj2 (proj2 (proj2 (proj2 (proj2 (exp_mono n))))))) m ts o L H). Qed.
Lemma args_mono n m ts o : (n <= m)%nat -> p_args n ts = Some o -> p_args m ts = Some o.
Proof. intros L H. exact (proj1 (proj2 (proj2 (proj2 (proj2 (proj2 (proj2 (proj2 (exp_mono n)))))))) m ts o L H). Qed.
Lemma not_mono n m ts o : (n <= m)%nat -> p_not n ts = Some o -> p_not m ts = Some o.
Proof. intros L H. exact (proj2 (proj2 (proj2 (proj2 (proj2 (proj2 (proj2 (proj2 (exp_mono n)))))))) m ts o L H). Qed.
Lemma tests_mono n : mono_at p_tests n.
Proof.
  induction n as [|n IH]; intros m ts o L H; [discriminate|]. destruct m as [|m]; [lia|]. apply le_S_n in L.
  cbn [p_tests] in H |- *. destruct (p_test n ts) as [[e r]|] eqn:E; [|discriminate]. rewrite (test_mono _ _ _ _ L E).
  destruct (after_op "," r) as [[|t r']|]; try exact H. destruct (after_op "=" (t :: r')); [exact H|].
  destruct (p_tests n (t :: r')) as [[[l c] r'']|] eqn:E'; [|discriminate]. rewrite (IH _ _ _ L E'). exact H.
Qed.
Lemma params_mono n : mono_at p_params n.
Proof.
  induction n as [|n IH]; intros m ts o L H; [discriminate|]. destruct m as [|m]; [lia|]. apply le_S_n in L.
  cbn [p_params] in H |- *. destruct ts as [|[] ts]; try exact H.
  destruct (after_op "=" ts) as [r|].
  - destruct (p_test n r) as [[e r']|] eqn:E; [|discriminate]. rewrite (test_mono _ _ _ _ L E).
    destruct (after_op "," r') as [r''|]; [|exact H].
    destruct (p_params n r'') as [[l r3]|] eqn:E'; [|discriminate]. rewrite (IH _ _ _ L E'). exact H.
  - destruct (after_op "," ts) as [r''|]; [|exact H].
    destruct (p_params n r'') as [[l r3]|] eqn:E'; [|discriminate]. rewrite (IH _ _ _ L E'). exact H.
Qed.
Lemma simple_mono n m ts o : (n <= m)%nat -> p_simple n ts = Some o -> p_simple m ts = Some o.
Proof.
  intros L H. unfold p_simple in *. destruct (after_word "return" ts) as [r|].
  { destruct (p_tests n r) as [[[l c] r']|] eqn:E; [|discriminate]. rewrite (tests_mono _ _ _ _ L E). exact H. }
  destruct (after_word "raise" ts) as [r|].
  { destruct (p_test n r) as [[e r']|] eqn:E; [|discriminate]. rewrite (test_mono _ _ _ _ L E). exact H. }
  destruct (after_word "pass" ts) as [r|]; [exact H|].
  destruct (p_tests n ts) as [[[l c] [|t r]]|] eqn:E; [| |discriminate]; rewrite (tests_mono _ _ _ _ L E); [exact H|].
  destruct (aug_op t) as [o'|].
  - destruct l as [|[] [|? ?]]; try discriminate. destruct c; [discriminate|].
    destruct (p_test n r) as [[e r']|] eqn:E'; [|discriminate]. rewrite (test_mono _ _ _ _ L E'). exact H.
  - destruct (is_op "=" t); [|discriminate]. destruct (names_of l); [|discriminate].
    destruct (p_tests n r) as [[[l' c'] r']|] eqn:E'; [|discriminate]. rewrite (tests_mono _ _ _ _ L E'). exact H.
Qed.
Lemma block_mono : forall n,
  (forall m k ls o, (n <= m)%nat -> p_block n k ls = Some o -> p_block m k ls = Some o) /\
  (forall m k ts r o, (n <= m)%nat -> p_stmt n k ts r = Some o -> p_stmt m k ts r = Some o) /\
  (forall m k d ts r o, (n <= m)%nat -> p_def n k d ts r = Some o -> p_def m k d ts r = Some o) /\
  (forall m k r o, (n <= m)%nat -> p_suite n k r = Some o -> p_suite m k r = Some o).
Proof.
  induction n as [|n (I1 & I2 & I3 & I4)]; [repeat split; intros; discriminate|].
  repeat split; intros m k; (destruct m as [|m]; [intros; lia|]).
  - intros ls o L H. apply le_S_n in L. cbn [p_block] in H |- *. destruct ls as [|[i ts] r]; [exact H|].
    destruct (i <? k)%nat; [exact H|]. destruct (k <? i)%nat; [exact H|].
    destruct (p_stmt n k ts r) as [[s r']|] eqn:E; [|discriminate]. rewrite (I2 _ _ _ _ _ L E).
    destruct (p_block n k r') as [[l r'']|] eqn:E'; [|discriminate]. rewrite (I1 _ _ _ _ L E'). exact H.
  - intros ts r o L H. apply le_S_n in L. cbn [p_stmt] in H |- *. destruct (after_word "if" ts) as [ts'|].
    { destruct (p_test n ts') as [[e r']|] eqn:E; [|discriminate]. rewrite (test_mono _ _ _ _ L E).
      destruct r' as [|c one]; [exact H|]. destruct (is_op ":" c); [|exact H].
      set (A := fun n => match one with [] => p_suite n k r | _ => match p_simple n one with Some s => Some ([s], r) | None => None end end).
      change (match A n with None => None | Some (a, r) => match r with
        | (i, [w; c]) :: r' => if (i =? k)%nat && is_word "else" w && is_op ":" c then match p_suite n k r' with Some (b, r) => Some (qIf e a b, r) | None => None end else Some (qIf e a [], r)
        | _ => Some (qIf e a [], r) end end = Some o) in H.
      change (match A m with None => None | Some (a, r) => match r with
        | (i, [w; c]) :: r' => if (i =? k)%nat && is_word "else" w && is_op ":" c then match p_suite m k r' with Some (b, r) => Some (qIf e a b, r) | None => None end else Some (qIf e a [], r)
        | _ => Some (qIf e a [], r) end end = Some o).
      assert (Am : forall x, A n = Some x -> A m = Some x).
      { unfold A. intros x. destruct one as [|o1 one]; [intros X; exact (I4 _ _ _ _ L X)|]. destruct (p_simple n (o1 :: one)) as [s|] eqn:X; [|discriminate].
        rewrite (simple_mono _ _ _ _ L X). auto. }
      clearbody A. destruct (A n) as [[a r1]|] eqn:E'; [|discriminate]. rewrite (Am _ eq_refl).
      destruct r1 as [|[i [|w [|c' [|? ?]]]] r2]; try exact H. destruct ((i =? k)%nat && is_word "else" w && is_op ":" c'); [|exact H].
      destruct (p_suite n k r2) as [[b r3]|] eqn:E2; [|discriminate]. rewrite (I4 _ _ _ _ L E2). exact H. }
    destruct (after_op "@" ts) as [[|[] [|? ?]]|]; try exact H.
    { destruct r as [|[i ts'] r]; [exact H|]. destruct (i =? k)%nat; [|exact H]. apply I3; assumption. }
    destruct (after_word "def" ts) as [r'|]; [apply I3; assumption|].
    destruct (p_simple n ts) as [s|] eqn:E; [|discriminate]. rewrite (simple_mono _ _ _ _ L E). exact H.
  - intros d ts r o L H. apply le_S_n in L. cbn [p_def] in H |- *.
    destruct (after_word "def" ts) as [[|[] [|t ts']]|]; try exact H. destruct (is_op "(" t); [|exact H].
    destruct (p_params n ts') as [[ps r']|] eqn:E; [|discriminate]. rewrite (params_mono _ _ _ _ L E).
    destruct r' as [|c [|? ?]]; try exact H. destruct (is_op ":" c); [|exact H].
    destruct (p_suite n k r) as [[a r1]|] eqn:E'; [|discriminate]. rewrite (I4 _ _ _ _ L E'). exact H.
  - intros r o L H. apply le_S_n in L. cbn [p_suite] in H |- *. destruct r as [|[i ts] r]; [exact H|].
    destruct (k <? i)%nat; [|exact H]. apply I1; assumption.
Qed.

(** the reading of a text is unique *)
Theorem reads_unique k ls a b : reads_as k ls a -> reads_as k ls b -> a = b.
Proof.
  intros (t & n & L & H) (t' & n' & L' & H'). rewrite L in L'. injection L' as <-.
  apply (proj1 (block_mono n) (Nat.max n n')) in H; [|lia]. apply (proj1 (block_mono n') (Nat.max n n')) in H'; [|lia].
  rewrite H in H'. now injection H'.
Qed.

(** ** A grammar: what can be written for an expression

    levels: 0 tests, 1 a ^ b, 2 a + b, 3 -a, 4 atoms, attributes and calls *)
Notation op s := (KOp (lit s)).
Notation word s := (KWord (lit s)).
Definition cmp_toks (o : cmpop) : list token :=
  match o with
  | CEq => [op "=="] | CNe => [op "!="]
  | CIs => [word "is"] | CIsNot => [word "is"; word "not"]
  end.
Definition const_tok (c : const) : token :=
  match c with CNone => word "None" | CTrue => word "True" | CFalse => word "False" end.

Definition bool_tok (o : boolop) : token := match o with OAnd => word "and" | OOr => word "or" end.
Definition sum_tok (o : binop) : token := match o with BMod => op "%" | _ => op "+" end.

Inductive prints : nat -> list token -> pexp -> Prop :=
| g_up l ts e : (l < 4)%nat -> prints (S l) ts e -> prints l ts e
| g_not ts e : prints 0 ts e -> prints 0 (word "not" :: ts) (xNot e)
| g_cmp o a b x y : prints 1 a x -> prints 1 b y -> prints 0 (a ++ cmp_toks o ++ b) (xCmp o x y)
| g_xor a b x y : prints 2 a x -> prints 2 b y -> prints 1 (a ++ op "^" :: b) (xBin BXor x y)
| g_sum o a b x y : o <> BXor -> prints 3 a x -> prints 3 b y -> prints 2 (a ++ sum_tok o :: b) (xBin o x y)
| g_neg ts e : prints 3 ts e -> prints 3 (op "-" :: ts) (xNeg e)
| g_num z : prints 4 [KNum z] (xNum z)
| g_flo s : prints 4 [KFloat s] (xFlo s)
| g_str s : prints 4 [KStr s] (xStr s)
| g_byt b : prints 4 [KBytes b] (xByt b)
| g_var n : prints 4 [KName n] (xVar n)
| g_const c : prints 4 [const_tok c] (xConst c)
| g_nil : prints 4 [op "["; op "]"] xNil
| g_parb o a b x y : prints 0 a x -> prints 0 b y -> prints 4 (op "(" :: (a ++ bool_tok o :: b) ++ [op ")"]) (xBool o x y)
| g_par ts e : prints 0 ts e -> prints 4 (op "(" :: ts ++ [op ")"]) e
| g_tup ts l c : glist ts l c -> (forall e, l = [e] -> c = true) -> prints 4 (op "(" :: ts ++ [op ")"]) (xTup l)
| g_dot ts e n : prints 4 ts e -> prints 4 (ts ++ [op "."; KName n]) (xDot e n)
| g_app ts e r l k : prints 4 ts e -> gargs r l k -> prints 4 (ts ++ op "(" :: r ++ [op ")"]) (xApp e l k)
with glist : list token -> list pexp -> bool -> Prop :=
| gl_nil : glist [] [] false
| gl_one ts e : prints 0 ts e -> glist ts [e] false
| gl_cons ts e r l c : prints 0 ts e -> glist r l c -> glist (ts ++ op "," :: r) (e :: l) true
with gargs : list token -> list pexp -> list (str * pexp) -> Prop :=
| ga_nil : gargs [] [] []
| ga_last ts e : prints 0 ts e -> gargs ts [e] []
| ga_cons ts e r l k : prints 0 ts e -> gargs r l k -> gargs (ts ++ op "," :: r) (e :: l) k
| gk_last x ts e : prints 0 ts e -> gargs (KName x :: op "=" :: ts) [] [(x, e)]
| gk_cons x ts e r k : prints 0 ts e -> gargs r [] k -> existsb (fun kw => str_eqb x (fst kw)) k = false ->
    gargs (KName x :: op "=" :: ts ++ op "," :: r) [] ((x, e) :: k).
Scheme prints_i := Minimality for prints Sort Prop with glist_i := Minimality for glist Sort Prop
  with gargs_i := Minimality for gargs Sort Prop.

(** what an expression begins with *)
Definition head_ok (l : nat) (ts : list token) : Prop :=
  exists t r, ts = t :: r /\ is_op ")" t = false /\ is_op "=" t = false /\ is_op "," t = false /\
    ((1 <= l)%nat -> is_word "not" t = false) /\ (l = 4%nat -> is_op "-" t = false) /\
    match t, r with KName _, t' :: _ => is_op "=" t' = false | _, _ => True end.
Lemma head_app l ts t r : head_ok l ts -> is_op "=" t = false -> head_ok l (ts ++ t :: r).
Proof.
  intros (x & y & -> & H1 & H2 & H3 & H4 & H5 & H6) E. exists x, (y ++ t :: r). cbn [app].
  do 4 (split; [first [reflexivity|assumption]|]). split; [exact H4|]. split; [exact H5|]. destruct x; auto. destruct y; auto.
Qed.
Lemma head_down l ts : head_ok (S l) ts -> (l < 4)%nat -> head_ok l ts.
Proof.
  intros (x & y & -> & H1 & H2 & H3 & H4 & H5 & H6) E. exists x, y.
  do 4 (split; [first [reflexivity|assumption]|]). split; [intros; apply H4; lia|]. split; [intros; lia|exact H6].
Qed.
Lemma head_low l m ts : (m <= l)%nat -> head_ok l ts -> (m < 4)%nat -> head_ok m ts.
Proof.
  intros L H M. destruct H as (x & y & -> & H1 & H2 & H3 & H4 & H5 & H6). exists x, y.
  do 4 (split; [first [reflexivity|assumption]|]). split; [intros; apply H4; lia|]. split; [intros; lia|exact H6].
Qed.
Lemma prints_head l ts e : prints l ts e -> head_ok l ts.
Proof.
  apply (prints_i (fun l ts _ => head_ok l ts) (fun _ _ _ => True) (fun _ _ _ => True)); auto; clear l ts e.
  - intros l ts e L _ H. apply head_down; assumption.
  - intros ts e _ _. eexists _, ts. do 4 (split; [reflexivity|]). split; [lia|]. split; [lia|exact Logic.I].
  - intros o a b x y _ H _ _. destruct o; cbn [cmp_toks app]; apply head_app; try reflexivity; apply head_low with (l := 1%nat); auto; lia.
  - intros a b x y _ H _ _. apply head_app; [|reflexivity]. apply head_low with (l := 2%nat); auto; lia.
  - intros o a b x y _ _ H _ _. apply head_app; [|destruct o; reflexivity]. apply head_low with (l := 3%nat); auto; lia.
  - intros ts e _ _. eexists _, ts. do 4 (split; [reflexivity|]). split; [reflexivity|]. split; [lia|exact Logic.I].
  - intros z. eexists _, []. split; [reflexivity|]. repeat (split; [reflexivity|]). repeat split; reflexivity.
  - intros z. eexists _, []. split; [reflexivity|]. repeat (split; [reflexivity|]). repeat split; reflexivity.
  - intros z. eexists _, []. split; [reflexivity|]. repeat (split; [reflexivity|]). repeat split; reflexivity.
  - intros z. eexists _, []. split; [reflexivity|]. repeat (split; [reflexivity|]). repeat split; reflexivity.
  - intros z. eexists _, []. split; [reflexivity|]. repeat (split; [reflexivity|]). repeat split; reflexivity.
  - intros c. exists (const_tok c), []. split; [reflexivity|]. destruct c; repeat (split; [reflexivity|]); repeat split; reflexivity.
  - eexists _, _. split; [reflexivity|]. repeat (split; [reflexivity|]). repeat split; reflexivity.
  - intros o a b x y _ _ _ _. eexists _, _. split; [reflexivity|]. repeat (split; [reflexivity|]). repeat split; reflexivity.
  - intros ts e _ _. eexists _, _. split; [reflexivity|]. repeat (split; [reflexivity|]). repeat split; reflexivity.
  - intros ts e c _ _ _. eexists _, _. split; [reflexivity|]. repeat (split; [reflexivity|]). repeat split; reflexivity.
  - intros ts e n _ H. apply head_app; [exact H|reflexivity].
  - intros ts e r l k _ H _ _. apply head_app; [exact H|reflexivity].
Qed.

(** what may follow an expression of a level *)
Definition fol (l : nat) (rest : list token) : Prop :=
  after_op "." rest = None /\ after_op "(" rest = None /\
  ((l <= 2)%nat -> sum_op rest = None) /\
  ((l <= 1)%nat -> after_op "^" rest = None) /\
  (l = O -> cmp_op rest = None).
Definition p_level (l : nat) : nat -> list token -> option (pexp * list token) :=
  match l with O => p_not | S O => p_xor | S (S O) => p_sum | _ => p_factor end.
Definition read_ok (l : nat) (ts : list token) (e : pexp) : Prop :=
  match l with
  | S (S (S (S O))) => forall rest n out, p_trail n e rest = Some out -> exists n, p_factor n (ts ++ rest) = Some out
  | _ => forall rest, fol l rest -> exists n, p_level l n (ts ++ rest) = Some (e, rest)
  end.

Lemma head_not l ts rest : head_ok l ts -> (1 <= l)%nat -> after_word "not" (ts ++ rest) = None.
Proof. intros (t & r & -> & _ & _ & _ & H & _) L. cbn [app after_word]. rewrite (H L). reflexivity. Qed.
Lemma head_close l ts rest : head_ok l ts -> after_op ")" (ts ++ rest) = None.
Proof. intros (t & r & -> & H & _). cbn [app after_op]. rewrite H. reflexivity. Qed.

Lemma up_ok l ts e : (l < 4)%nat -> prints (S l) ts e -> read_ok (S l) ts e -> read_ok l ts e.
Proof.
  intros L P H. pose proof (prints_head _ _ _ P) as Hd. destruct l as [|[|[|[|l]]]]; [| | | |lia].
  - intros rest F. destruct F as (F1 & F2 & F3 & F4 & F5). destruct (H rest) as (n & E).
    { split; [exact F1|]. split; [exact F2|]. split; [intros _; apply F3; lia|]. split; [intros _; apply F4; lia|discriminate]. }
    exists (S n). cbn [p_level p_not] in *. rewrite (head_not _ _ _ Hd) by lia. rewrite E. rewrite (F5 eq_refl). reflexivity.
  - intros rest F. destruct F as (F1 & F2 & F3 & F4 & F5). destruct (H rest) as (n & E).
    { split; [exact F1|]. split; [exact F2|]. split; [intros _; apply F3; lia|]. split; [lia|discriminate]. }
    exists (S n). cbn [p_level p_xor] in *. rewrite E, F4 by lia. reflexivity.
  - intros rest F. destruct F as (F1 & F2 & F3 & F4 & F5). destruct (H rest) as (n & E).
    { split; [exact F1|]. split; [exact F2|]. split; [lia|]. split; [lia|discriminate]. }
    exists (S n). cbn [p_level p_sum] in *. rewrite E, F3 by lia. reflexivity.
  - intros rest (F1 & F2 & _). cbn [p_level]. cbn [read_ok] in H. apply (H rest 1%nat). cbn [p_trail]. rewrite F1, F2. reflexivity.
Qed.

Lemma lift_test n ts e r : p_level 0 n ts = Some (e, r) -> bool_op r = None -> p_test (S n) ts = Some (e, r).
Proof. cbn [p_level]. intros E B. cbn [p_test]. now rewrite E, B. Qed.
Lemma bool_toks_ok o r : bool_op (bool_tok o :: r) = Some (o, r).
Proof. destruct o; reflexivity. Qed.
Lemma bool_read o a b x y rest : bool_op rest = None ->
  (exists n, p_level 0 n (a ++ bool_tok o :: b ++ rest) = Some (x, bool_tok o :: b ++ rest)) -> (exists n, p_level 0 n (b ++ rest) = Some (y, rest)) ->
  exists n, p_test n (a ++ bool_tok o :: b ++ rest) = Some (xBool o x y, rest).
Proof.
  intros B (n & En) (m & Em). exists (S (Nat.max n m)). cbn [p_test p_level] in *.
  rewrite (not_mono n (Nat.max n m) _ _ ltac:(lia) En), bool_toks_ok, (not_mono m (Nat.max n m) _ _ ltac:(lia) Em), B. reflexivity.
Qed.
Ltac folt := repeat split; intros; try reflexivity; try lia.

Lemma atom_ok ts e : head_ok 4 ts -> (forall rest, exists n, p_atom n (ts ++ rest) = Some (e, rest)) -> read_ok 4 ts e.
Proof.
  intros (t & r & -> & _ & _ & _ & _ & H & _) A. cbn [read_ok]. intros rest n out T. destruct (A rest) as (m & E).
  exists (S (Nat.max n m)). cbn [p_factor after_op app] in *. rewrite (H eq_refl).
  rewrite (atom_mono m (Nat.max n m) _ _ ltac:(lia) E). apply trail_mono with (n := n); [lia|exact T].
Qed.
Lemma token_ok t e : head_ok 4 [t] -> (forall r, p_atom 1 (t :: r) = Some (e, r)) -> read_ok 4 [t] e.
Proof. intros H A. apply atom_ok; [exact H|]. intros rest. exists 1%nat. apply A. Qed.

Lemma cmp_toks_ok o r : after_word "not" r = None -> cmp_op (cmp_toks o ++ r) = Some (o, r).
Proof. intros H. destruct o; try reflexivity. unfold cmp_op. cbn [cmp_toks app after_op after_word is_op is_word]. rewrite str_eqb_refl, H. reflexivity. Qed.

Lemma nokey l ts t rest : head_ok l ts -> is_op "=" t = false ->
  match ts ++ t :: rest with
  | KName x :: t :: r => if is_op "=" t then Some (x, r) else None
  | _ => None
  end = None.
Proof.
  intros (u & r & -> & _ & _ & _ & _ & _ & H) E. cbn [app]. destruct u; try reflexivity.
  destruct r as [|v r]; cbn [app]; [rewrite E|rewrite H]; reflexivity.
Qed.

Theorem prints_ok l ts e : prints l ts e -> read_ok l ts e.
Proof.
  apply (prints_i (fun l ts e => read_ok l ts e)
    (fun ts l c => forall rest, exists n, p_list n (ts ++ op ")" :: rest) = Some (l, c, rest))
    (fun ts l k => forall rest, exists n, p_args n (ts ++ op ")" :: rest) = Some (l, k, rest))); clear l ts e.
  - intros l ts e L P H. apply up_ok; assumption.
  - intros ts e P H rest F. destruct (H rest F) as (n & E). exists (S n). cbn [p_level p_not after_word is_word app] in *.
    rewrite str_eqb_refl. rewrite E. reflexivity.
  - intros o a b x y Pa Ha Pb Hb rest F. rewrite <- app_assoc.
    pose proof (prints_head _ _ _ Pa) as Da. pose proof (prints_head _ _ _ Pb) as Db.
    destruct (Ha (((cmp_toks o ++ b) ++ rest))) as (n & En); [destruct o; folt|].
    destruct (Hb rest) as (m & Em).
    { destruct F as (F1 & F2 & F3 & F4 & F5). split; [exact F1|]. split; [exact F2|]. split; [intros; apply F3; lia|].
      split; [intros; apply F4; lia|discriminate]. }
    exists (S (Nat.max n m)). cbn [p_level p_not] in *. rewrite (head_not _ _ _ Da) by lia.
    rewrite (xor_mono n (Nat.max n m) _ _ ltac:(lia) En). rewrite <- app_assoc, cmp_toks_ok by (apply (head_not 1); [exact Db|lia]).
    rewrite (xor_mono m (Nat.max n m) _ _ ltac:(lia) Em). destruct F as (F1 & F2 & F3 & F4 & F5). rewrite (F5 eq_refl). reflexivity.
  - intros a b x y Pa Ha Pb Hb rest F. rewrite <- app_assoc. cbn [app].
    destruct (Ha (op "^" :: b ++ rest)) as (n & En); [folt|].
    destruct (Hb rest) as (m & Em).
    { destruct F as (F1 & F2 & F3 & F4 & F5). split; [exact F1|]. split; [exact F2|]. split; [intros; apply F3; lia|].
      split; [lia|discriminate]. }
    exists (S (Nat.max n m)). cbn [p_level p_xor] in *. rewrite (sum_mono n (Nat.max n m) _ _ ltac:(lia) En). cbn [after_op is_op].
    rewrite str_eqb_refl. rewrite (sum_mono m (Nat.max n m) _ _ ltac:(lia) Em). destruct F as (F1 & F2 & F3 & F4 & F5). rewrite F4 by lia. reflexivity.
  - intros o a b x y Hx Pa Ha Pb Hb rest F. rewrite <- app_assoc. cbn [app].
    destruct (Ha (sum_tok o :: b ++ rest)) as (n & En); [destruct o; [folt|contradiction|folt]|].
    destruct (Hb rest) as (m & Em).
    { destruct F as (F1 & F2 & F3 & F4 & F5). split; [exact F1|]. split; [exact F2|]. split; [lia|].
      split; [lia|discriminate]. }
    exists (S (Nat.max n m)). cbn [p_level p_sum] in *. rewrite (factor_mono n (Nat.max n m) _ _ ltac:(lia) En).
    replace (sum_op (sum_tok o :: b ++ rest)) with (Some (o, b ++ rest)) by (destruct o; [reflexivity|contradiction|reflexivity]). rewrite (factor_mono m (Nat.max n m) _ _ ltac:(lia) Em). destruct F as (F1 & F2 & F3 & F4 & F5). rewrite F3 by lia. reflexivity.
  - intros ts e P H rest F. destruct (H rest F) as (n & E). exists (S n). cbn [p_level p_factor after_op is_op app] in *.
    rewrite str_eqb_refl. rewrite E. reflexivity.
  - intros z. apply token_ok; [apply (prints_head 4 _ (xNum z)); apply g_num|reflexivity].
  - intros z. apply token_ok; [apply (prints_head 4 _ (xFlo z)); apply g_flo|reflexivity].
  - intros z. apply token_ok; [apply (prints_head 4 _ (xStr z)); apply g_str|reflexivity].
  - intros z. apply token_ok; [apply (prints_head 4 _ (xByt z)); apply g_byt|reflexivity].
  - intros z. apply token_ok; [apply (prints_head 4 _ (xVar z)); apply g_var|reflexivity].
  - intros c. apply token_ok; [apply (prints_head 4 _ (xConst c)); apply g_const|destruct c; reflexivity].
  - apply atom_ok; [apply (prints_head 4 _ xNil); apply g_nil|]. intros rest. exists 1%nat. reflexivity.
  - intros o a b x y Pa Ha Pb Hb. apply atom_ok; [apply (prints_head 4 _ (xBool o x y)); apply g_parb; assumption|]. intros rest. cbn [app]. rewrite <- !app_assoc. cbn [app].
    destruct (bool_read o a b x y (op ")" :: rest) eq_refl) as (n & E).
    { apply Ha. destruct o; folt. }
    { apply Hb. folt. }
    exists (S (S n)). cbn [p_atom]. rewrite str_eqb_refl. cbn [p_list].
    rewrite (head_close 0) by (eapply prints_head; exact Pa). rewrite E. cbn [after_op is_op].
    change (str_eqb (lit ")") (lit ",")) with false. rewrite str_eqb_refl. reflexivity.
  - intros ts e P H. apply atom_ok; [apply (prints_head 4 _ e); apply g_par; exact P|]. intros rest. cbn [app]. rewrite <- app_assoc. cbn [app].
    destruct (H (op ")" :: rest)) as (n & E); [folt|]. exists (S (S (S n))). cbn [p_atom]. rewrite str_eqb_refl. cbn [p_list].
    rewrite (head_close 0) by (eapply prints_head; exact P). apply lift_test in E; [|reflexivity]. rewrite E. cbn [after_op is_op].
    change (str_eqb (lit ")") (lit ",")) with false. rewrite str_eqb_refl. reflexivity.
  - intros ts l c P H O. apply atom_ok; [apply (prints_head 4 _ (xTup l)); apply g_tup with c; assumption|]. intros rest. cbn [app]. rewrite <- app_assoc. cbn [app].
    destruct (H rest) as (n & E). exists (S n). cbn [p_atom]. rewrite str_eqb_refl, E. destruct l as [|e [|? ?]]; try reflexivity.
    rewrite (O e eq_refl). reflexivity.
  - intros ts e n P H. cbn [read_ok] in *. intros rest m out T. rewrite <- app_assoc. cbn [app].
    apply (H _ (S m)). cbn [p_trail after_op is_op]. rewrite str_eqb_refl. exact T.
  - intros ts e r l k P H A HA. cbn [read_ok] in *. intros rest m out T. rewrite <- app_assoc. cbn [app]. rewrite <- app_assoc. cbn [app].
    destruct (HA rest) as (n & E). apply (H _ (S (Nat.max m n))). cbn [p_trail after_op is_op].
    change (str_eqb (lit "(") (lit ".")) with false. rewrite str_eqb_refl. rewrite (args_mono n (Nat.max m n) _ _ ltac:(lia) E).
    apply trail_mono with (n := m); [lia|exact T].
  - intros rest. exists 1%nat. reflexivity.
  - intros ts e P H rest. destruct (H (op ")" :: rest)) as (n & E); [folt|]. exists (S (S n)). cbn [p_list].
    rewrite (head_close 0) by (eapply prints_head; exact P). apply lift_test in E; [|reflexivity]. rewrite E. cbn [after_op is_op].
    change (str_eqb (lit ")") (lit ",")) with false. rewrite str_eqb_refl. reflexivity.
  - intros ts e r l c P H G HG rest. rewrite <- app_assoc. cbn [app]. destruct (H (op "," :: r ++ op ")" :: rest)) as (n & E); [folt|].
    destruct (HG rest) as (m & Em). exists (S (Nat.max (S n) m)). cbn [p_list].
    rewrite (head_close 0) by (eapply prints_head; exact P). apply lift_test in E; [|reflexivity]. rewrite (test_mono (S n) (Nat.max (S n) m) _ _ ltac:(lia) E). cbn [after_op is_op].
    rewrite str_eqb_refl. rewrite (list_mono m (Nat.max (S n) m) _ _ ltac:(lia) Em). reflexivity.
  - intros rest. exists 1%nat. reflexivity.
  - intros ts e P H rest. destruct (H (op ")" :: rest)) as (n & E); [folt|]. exists (S (S n)). cbn [p_args].
    pose proof (prints_head _ _ _ P) as Hd. rewrite (head_close 0) by exact Hd.
    rewrite (nokey 0) by (exact Hd || reflexivity). apply lift_test in E; [|reflexivity]. rewrite E. cbn [after_op is_op].
    change (str_eqb (lit ")") (lit ",")) with false. rewrite str_eqb_refl. reflexivity.
  - intros ts e r l k P H G HG rest. rewrite <- app_assoc. cbn [app]. destruct (H (op "," :: r ++ op ")" :: rest)) as (n & E); [folt|].
    destruct (HG rest) as (m & Em). exists (S (Nat.max (S n) m)). cbn [p_args].
    pose proof (prints_head _ _ _ P) as Hd. rewrite (head_close 0) by exact Hd.
    rewrite (nokey 0) by (exact Hd || reflexivity). apply lift_test in E; [|reflexivity]. rewrite (test_mono (S n) (Nat.max (S n) m) _ _ ltac:(lia) E). cbn [after_op is_op].
    rewrite str_eqb_refl. rewrite (args_mono m (Nat.max (S n) m) _ _ ltac:(lia) Em). reflexivity.
  - intros x ts e P H rest. destruct (H (op ")" :: rest)) as (n & E); [folt|]. exists (S (S n)). cbn [p_args app after_op is_op].
    rewrite str_eqb_refl. apply lift_test in E; [|reflexivity]. rewrite E. cbn [after_op is_op].
    change (str_eqb (lit ")") (lit ",")) with false. rewrite str_eqb_refl. reflexivity.
  - intros x ts e r k P H G HG Nk rest. cbn [app]. rewrite <- app_assoc. cbn [app]. destruct (H (op "," :: r ++ op ")" :: rest)) as (n & E); [folt|].
    destruct (HG rest) as (m & Em). exists (S (Nat.max (S n) m)). cbn [p_args app after_op is_op].
    rewrite !str_eqb_refl. apply lift_test in E; [|reflexivity]. rewrite (test_mono (S n) (Nat.max (S n) m) _ _ ltac:(lia) E). cbn [after_op is_op].
    rewrite str_eqb_refl. rewrite (args_mono m (Nat.max (S n) m) _ _ ltac:(lia) Em). rewrite Nk. reflexivity.
Qed.

(** tests, up to the end of a line *)
Definition fol0 (rest : list token) : Prop := fol 0 rest /\ bool_op rest = None.
Inductive gtest : list token -> pexp -> Prop :=
| gb_up ts e : prints 0 ts e -> gtest ts e
| gb_bool o a b x y : prints 0 a x -> prints 0 b y -> gtest (a ++ bool_tok o :: b) (xBool o x y).
Lemma gtest_ok ts e rest : gtest ts e -> fol0 rest -> exists n, p_test n (ts ++ rest) = Some (e, rest).
Proof.
  intros P (F & B). destruct P as [ts e P|o a b x y Pa Pb].
  - destruct (prints_ok 0 ts e P rest F) as (n & E). exists (S n). apply lift_test; assumption.
  - rewrite <- app_assoc. cbn [app]. apply bool_read; [exact B|apply (prints_ok 0 a x Pa); destruct o; folt|apply (prints_ok 0 b y Pb); exact F].
Qed.
Lemma test_ok ts e rest : prints 0 ts e -> fol0 rest -> exists n, p_test n (ts ++ rest) = Some (e, rest).
Proof. intros P. apply gtest_ok. now apply gb_up. Qed.

(** ** Spelling: texts made of tokens and spaces *)
Inductive piece := sp | tk (p : str) (t : token).
Definition spell (x : piece) : str := match x with sp => [32] | tk p _ => p end.
Definition flat (l : list piece) : str := flat_map spell l.
Fixpoint toks_of (l : list piece) : list token :=
  match l with [] => [] | sp :: r => toks_of r | tk _ t :: r => t :: toks_of r end.

(** no character of [s] is special in a literal between apostrophes *)
Definition plain (s : str) : Prop := forall c, In c s -> c <> 39 /\ c <> 92 /\ c <> 10.
(** the same between double quotes *)
Definition plain2 (s : str) : Prop := forall c, In c s -> c <> 34 /\ c <> 92 /\ c <> 10.
Definition op_ok (o : str) : bool := existsb (str_eqb o) op2 || existsb (str_eqb o) (map (fun c => [c]) op1).
Inductive spells : str -> token -> Prop :=
| sp_name n : ident n = true -> keyword n = false -> spells n (KName n)
| sp_word n : ident n = true -> keyword n = true -> spells n (KWord n)
| sp_num z : 0 <= z -> spells (dec_nat z) (KNum z)
| sp_float s : PyExprFacts.float_text s -> spells s (KFloat s)
| sp_str s : plain s -> spells (39 :: s ++ [39]) (KStr s)
| sp_bytes b : spells (98 :: bytes_repr b) (KBytes b)
| sp_bytes2 : spells [98; 34; 34] (KBytes [])
| sp_str2 s : plain2 s -> spells (34 :: s ++ [34]) (KStr s)
| sp_op o : op_ok o = true -> spells o (KOp o)
| sp_hex h : h <> [] -> forallb hex_digit h = true -> spells (48 :: 120 :: h) (KNum (hex_number h)).
(** what may come next *)
Definition sep (t : token) (rest : str) : Prop :=
  match rest with
  | [] => True
  | c :: _ =>
      match t with
      | KName _ | KWord _ => ident_char c = false /\ quote c = false
      | KNum _ | KFloat _ => (digit c = false /\ c <> 46 /\ c <> 101 /\ c <> 43 /\ c <> 45) /\ ident_char c = false
      | KStr _ | KBytes _ => True
      | KOp [a] => existsb (str_eqb [a; c]) op2 = false
      | KOp _ => True
      end
  end.
Fixpoint pieces_ok (l : list piece) (rest : str) : Prop :=
  match l with
  | [] => True
  | sp :: r => pieces_ok r rest
  | tk p t :: r => spells p t /\ sep t (flat r ++ rest) /\ pieces_ok r rest
  end.

Lemma pieces_app a b rest : pieces_ok a (flat b ++ rest) -> pieces_ok b rest -> pieces_ok (a ++ b) rest.
Proof.
  intros A B. induction a as [|[|p t] a IH]; cbn [app pieces_ok] in *; [exact B|auto|].
  destruct A as (A1 & A2 & A3). split; [exact A1|]. split; [|auto]. unfold flat in *. rewrite flat_map_app, <- app_assoc. exact A2.
Qed.
Lemma toks_app a b : toks_of (a ++ b) = toks_of a ++ toks_of b.
Proof. induction a as [|[|p t] a IH]; cbn; congruence. Qed.
Lemma flat_app a b : flat (a ++ b) = flat a ++ flat b.
Proof. apply flat_map_app. Qed.

(** numbers *)
Definition nend (rest : str) : Prop :=
  match rest with [] => True | c :: _ => digit c = false /\ c <> 46 /\ c <> 101 /\ c <> 43 /\ c <> 45 end.
Lemma nend_digit rest : nend rest -> match rest with [] => True | c :: _ => digit c = false end.
Proof. destruct rest; [auto|]. now intros (H & _). Qed.
Lemma nend_fraction rest : nend rest -> fraction rest = ([], rest).
Proof. destruct rest as [|c r]; [auto|]. intros (_ & H & _). cbn [fraction]. apply Z.eqb_neq in H. now rewrite H. Qed.
Lemma nend_exponent rest : nend rest -> exponent rest = ([], rest).
Proof. destruct rest as [|c r]; [auto|]. intros (_ & _ & H & _). cbn [exponent]. apply Z.eqb_neq in H. now rewrite H. Qed.
Lemma fraction_app s rest : nend rest -> fraction (s ++ rest) = let (a, b) := fraction s in (a, b ++ rest).
Proof.
  intros R. destruct s as [|c s]; [cbn [app]; rewrite nend_fraction by exact R; reflexivity|].
  cbn [app fraction]. destruct (c =? 46); [|reflexivity]. rewrite PyExprFacts.span_app by (apply nend_digit; exact R).
  destruct (span digit s). reflexivity.
Qed.
Lemma exponent_app s rest : nend rest -> exponent (s ++ rest) = let (a, b) := exponent s in (a, b ++ rest).
Proof.
  intros R. destruct s as [|c s]; [cbn [app]; rewrite nend_exponent by exact R; reflexivity|].
  cbn [app exponent]. destruct (c =? 101) eqn:C; [|reflexivity].
  destruct s as [|x s].
  - cbn [app]. destruct rest as [|y rest]; [reflexivity|]. destruct R as (D & _ & _ & P & M).
    apply Z.eqb_neq in P, M. rewrite P, M. cbn [orb span]. rewrite D. reflexivity.
  - cbn [app]. destruct ((x =? 43) || (x =? 45)).
    + rewrite PyExprFacts.span_app by (apply nend_digit; exact R). destruct (span digit s) as [[|d ds] r]; reflexivity.
    + change (x :: s ++ rest) with ((x :: s) ++ rest). rewrite PyExprFacts.span_app by (apply nend_digit; exact R).
      destruct (span digit (x :: s)) as [[|d ds] r]; reflexivity.
Qed.
Lemma number_app s e rest : number_literal s = Some (e, []) -> nend rest -> number_literal (s ++ rest) = Some (e, rest).
Proof.
  unfold number_literal. intros H R. rewrite PyExprFacts.span_app by (apply nend_digit; exact R). destruct (span digit s) as [a r].
  destruct a as [|c a]; [discriminate|]. rewrite fraction_app by exact R. destruct (fraction r) as [f r'].
  rewrite exponent_app by exact R. destruct (exponent r') as [x r''].
  destruct f as [|f0 f], x as [|x0 x]; try destruct ((c =? 48) && _); try discriminate; injection H as <- ->; reflexivity.
Qed.

Lemma dec_token_ok s e rest : number_literal s = Some (e, []) -> nend rest -> match rest with [] => True | c :: _ => ident_char c = false end ->
  num_token (s ++ rest) = dec_token (s ++ rest).
Proof.
  intros H R X. destruct s as [|c [|d s]]; [discriminate H| |].
  - destruct rest as [|x rest]; [reflexivity|]. cbn [app num_token]. replace (x =? 120) with false by (destruct (Z.eqb_spec x 120) as [->|]; [discriminate X|reflexivity]). rewrite andb_false_r. reflexivity.
  - cbn [app num_token]. destruct ((c =? 48) && (d =? 120)) eqn:E; [|reflexivity]. exfalso. apply andb_prop in E. destruct E as (E1 & E2).
    apply Z.eqb_eq in E1, E2. subst c d. cbn in H. discriminate H.
Qed.
Lemma quote_not_ident q : quote q = true -> ident_char q = false.
Proof. unfold quote. intros H. apply orb_prop in H. destruct H as [H|H]; apply Z.eqb_eq in H; subst q; reflexivity. Qed.
Lemma ident_char_quote c : ident_char c = true -> quote c = false.
Proof. intros I. destruct (quote c) eqn:Q; [|reflexivity]. rewrite (quote_not_ident c Q) in I. discriminate. Qed.

Lemma name_token n rest : ident n = true -> match rest with [] => True | c :: _ => ident_char c = false /\ quote c = false end ->
  a_token (n ++ rest) = Some ((if keyword n then KWord n else KName n), rest).
Proof.
  intros N R. destruct (PyExprFacts.ident_first n N) as (c & r & E & D & I).
  assert (Id : a_name (n ++ rest) = Some ((if keyword n then KWord n else KName n), rest)).
  { unfold a_name. rewrite PyExprFacts.ident_ok; [reflexivity|exact N|destruct rest; [auto|apply R]]. }
  rewrite E in Id |- * at 1. cbn [app a_token] in Id |- *. rewrite (ident_char_quote c I), D.
  destruct (Z.eqb_spec c 98); [|subst n; exact Id].
  assert (Q : match r ++ rest with q :: _ => quote q = false | [] => True end).
  { destruct r as [|q r]; cbn [app].
    - destruct rest as [|q rest]; [auto|apply R].
    - destruct (ident_all n N) as (A & _). rewrite E in A. cbn [forallb] in A. apply andb_prop in A. destruct A as (_ & A).
      apply andb_prop in A. apply ident_char_quote, A. }
  destruct (r ++ rest) as [|q t] eqn:T; [|rewrite Q]; rewrite <- T in Id |- * ; subst n; exact Id.
Qed.
Lemma str_body_ok s rest : plain s -> str_body 39 (s ++ 39 :: rest) = Some (s, rest).
Proof.
  induction s as [|c s IH]; intros P; [reflexivity|]. cbn [app str_body].
  destruct (P c (or_introl eq_refl)) as (A & B & C). apply Z.eqb_neq in A, B, C. rewrite A, C, B, IH; [reflexivity|].
  intros x Hx. apply P. now right.
Qed.
Lemma str_body_ok2 s rest : plain2 s -> str_body 34 (s ++ 34 :: rest) = Some (s, rest).
Proof.
  induction s as [|c s IH]; intros P; [reflexivity|]. cbn [app str_body].
  destruct (P c (or_introl eq_refl)) as (A & B & C). apply Z.eqb_neq in A, B, C. rewrite A, C, B, IH; [reflexivity|].
  intros x Hx. apply P. now right.
Qed.
Lemma op_first o : op_ok o = true -> exists c r, o = c :: r /\ quote c = false /\ digit c = false /\ ident_char c = false /\ c <> 32 /\ c <> 35 /\
  (r = [] \/ exists b, r = [b] /\ existsb (str_eqb o) op2 = true).
Proof.
  unfold op_ok. intros H. apply orb_prop in H. destruct H as [H|H]; apply existsb_exists in H; destruct H as (x & I & E); apply str_eqb_spec in E; subst x.
  - vm_compute in I. repeat (destruct I as [<-|I]; [eexists _, _; split; [reflexivity|]; repeat (split; [reflexivity|]); split; [discriminate|]; split; [discriminate|]; right; eexists; split; reflexivity|]). destruct I.
  - vm_compute in I. repeat (destruct I as [<-|I]; [eexists _, _; split; [reflexivity|]; repeat (split; [reflexivity|]); split; [discriminate|]; split; [discriminate|]; now left|]). destruct I.
Qed.
Lemma op_one c : op_ok [c] = true -> existsb (Z.eqb c) op1 = true.
Proof.
  unfold op_ok. intros H. apply orb_prop in H. destruct H as [H|H]; apply existsb_exists in H; destruct H as (x & I & E); apply str_eqb_spec in E; subst x.
  - vm_compute in I. repeat (destruct I as [I|I]; [discriminate I|]). destruct I.
  - apply in_map_iff in I. destruct I as (y & E & I). injection E as ->. apply existsb_exists. exists c. split; [exact I|apply Z.eqb_refl].
Qed.
Lemma op_token o rest : op_ok o = true -> sep (KOp o) rest -> a_token (o ++ rest) = Some (KOp o, rest).
Proof.
  intros O S. destruct (op_first o O) as (c & r & -> & Q & D & I & _ & _ & R).
  assert (Id : forall t, identifier (c :: t) = None).
  { intros t. unfold identifier. cbn [span]. rewrite I. reflexivity. }
  cbn [app a_token]. rewrite Q, D. destruct (Z.eqb_spec c 98) as [->|_]; [discriminate I|].
  unfold a_name. rewrite Id. destruct R as [->|(b & -> & B)].
  - cbn [app]. unfold operator. destruct rest as [|x rest]; [rewrite op_one by exact O; reflexivity|].
    cbn [sep] in S. rewrite S, op_one by exact O. reflexivity.
  - cbn [app]. unfold operator. rewrite B. reflexivity.
Qed.

Lemma hex_ident c : ident_char c = false -> hex_digit c = false.
Proof. unfold hex_digit, ident_char, is_alnum, is_lower, is_upper, is_digit, underscore, digit. lia. Qed.
Lemma hex_token h rest : h <> [] -> forallb hex_digit h = true -> match rest with [] => True | c :: _ => ident_char c = false end ->
  num_token (48 :: 120 :: h ++ rest) = Some (KNum (hex_number h), rest).
Proof.
  intros Ne H R. cbn [num_token]. change ((48 =? 48) && (120 =? 120)) with true. cbn iota.
  assert (E : span hex_digit (h ++ rest) = (h, rest)).
  { clear Ne. induction h as [|c h IH]; cbn [app span].
    - destruct rest as [|c rest]; [reflexivity|]. cbn [span]. now rewrite (hex_ident c R).
    - cbn [forallb] in H. apply andb_prop in H. destruct H as (H1 & H2). rewrite H1, (IH H2). reflexivity. }
  rewrite E. destruct h; [contradiction|reflexivity].
Qed.
Lemma spells_token p t rest : spells p t -> sep t rest -> a_token (p ++ rest) = Some (t, rest).
Proof.
  destruct 1 as [n N K|n N K|z Z0|s (D & E)|s P|b| |s P|o O|h Nh Hh]; intros S.
  - rewrite name_token, K; [reflexivity|exact N|destruct rest; [auto|exact S]].
  - rewrite name_token, K; [reflexivity|exact N|destruct rest; [auto|exact S]].
  - assert (E : number_literal (dec_nat z) = Some (ENum z, [])).
    { pose proof (PyExprFacts.number_dec z [] Z0 Logic.I) as H. now rewrite app_nil_r in H. }
    destruct (PyExprFacts.dec_nat_head z Z0) as (c & r & E' & D & _).
    pose proof (dec_token_ok _ _ rest E ltac:(destruct rest; [auto|apply S]) ltac:(destruct rest; [auto|apply S])) as T.
    apply number_app with (rest := rest) in E; [|destruct rest; [auto|apply S]]. unfold dec_token in T. rewrite E in T.
    rewrite E' in T |- *. cbn [app a_token] in T |- *. rewrite D, T.
    replace (quote c) with false by (unfold quote, digit in *; lia). reflexivity.
  - pose proof (dec_token_ok _ _ rest E ltac:(destruct rest; [auto|apply S]) ltac:(destruct rest; [auto|apply S])) as T.
    apply number_app with (rest := rest) in E; [|destruct rest; [auto|apply S]]. unfold dec_token in T. rewrite E in T. destruct s as [|c s]; [contradiction|].
    cbn [app a_token] in T |- *. rewrite D, T. replace (quote c) with false by (unfold quote, digit in *; lia). reflexivity.
  - cbn [app a_token]. change (quote 39) with true. cbn iota. rewrite <- app_assoc. cbn [app]. rewrite str_body_ok by exact P. reflexivity.
  - unfold bytes_repr. cbn [app a_token]. change (quote 98) with false. change (digit 98) with false. cbn iota.
    change (98 =? 98) with true. cbn iota.
    assert (Q : bytes_quote b = 39 \/ bytes_quote b = 34) by (unfold bytes_quote; destruct (_ && _); auto).
    replace (quote (bytes_quote b)) with true by (unfold quote; lia).
    rewrite <- app_assoc. cbn [app]. rewrite (PyExprFacts.bytes_body_ok (bytes_quote b) rest Q); [reflexivity|].
    cbn [length]. rewrite app_length. pose proof (flat_map_length (repr_byte (bytes_quote b)) b (PyExprFacts.repr_byte_ne _)). lia.
  - reflexivity.
  - cbn [app a_token]. change (quote 34) with true. cbn iota. rewrite <- app_assoc. cbn [app]. rewrite str_body_ok2 by exact P. reflexivity.
  - apply op_token; assumption.
  - change ((48 :: 120 :: h) ++ rest) with (48 :: 120 :: h ++ rest). cbn [a_token]. change (quote 48) with false. change (digit 48) with true. cbn iota.
    apply hex_token; [exact Nh|exact Hh|destruct rest; [auto|apply S]].
Qed.
Lemma spells_first p t : spells p t -> exists c r, p = c :: r /\ c <> 32 /\ c <> 35.
Proof.
  assert (D : forall c, digit c = true -> c <> 32 /\ c <> 35) by (unfold digit; lia).
  destruct 1 as [n N K|n N K|z Z0|s (F & E)|s P|b| |s P|o O|h Nh Hh].
  - destruct (PyExprFacts.ident_first n N) as (c & r & -> & _ & I). exists c, r. split; [reflexivity|]. split; intros ->; discriminate I.
  - destruct (PyExprFacts.ident_first n N) as (c & r & -> & _ & I). exists c, r. split; [reflexivity|]. split; intros ->; discriminate I.
  - destruct (PyExprFacts.dec_nat_head z Z0) as (c & r & E' & F & _). exists c, r. auto.
  - destruct s as [|c s]; [contradiction|]. exists c, s. auto.
  - eexists _, _. split; [reflexivity|]. split; discriminate.
  - eexists _, _. split; [reflexivity|]. split; discriminate.
  - eexists _, _. split; [reflexivity|]. split; discriminate.
  - eexists _, _. split; [reflexivity|]. split; discriminate.
  - destruct (op_first o O) as (c & r & -> & _ & _ & _ & A & B & _). exists c, r. auto.
  - eexists _, _. split; [reflexivity|]. split; discriminate.
Qed.

Theorem lex_pieces l : pieces_ok l [] -> lex (flat l) = Some (toks_of l).
Proof.
  unfold lex. intros H. assert (L : (length (flat l) < S (length (flat l)))%nat) by lia.
  revert L. generalize (S (length (flat l))) as n. induction l as [|[|p t] l IH]; intros [|n] L; try lia.
  - reflexivity.
  - cbn [flat flat_map spell app length] in L. cbn [flat flat_map spell app lex_from toks_of]. change (32 =? 32) with true. cbn iota.
    apply IH; [exact H|unfold flat; lia].
  - cbn [pieces_ok] in H. destruct H as (S & P & H). rewrite app_nil_r in P. destruct (spells_first p t S) as (c & r & E & C1 & C2).
    pose proof (spells_token p t (flat l) S P) as T. change (flat (tk p t :: l)) with (p ++ flat l) in *.
    rewrite app_length in L. cbn [toks_of]. rewrite E in T, L |- *. cbn [app length] in T, L |- *. cbn [lex_from].
    apply Z.eqb_neq in C1, C2. rewrite C1, C2, T. rewrite IH; [reflexivity|exact H|lia].
Qed.
Lemma lex_comment s : lex (35 :: s) = Some [].
Proof. reflexivity. Qed.
Lemma lex_spaces k s : lex (repeat 32 k ++ s) = lex s.
Proof.
  unfold lex. rewrite app_length, repeat_length. induction k as [|k IH]; [reflexivity|]. cbn [repeat app Nat.add].
  cbn [lex_from]. change (32 =? 32) with true. exact IH.
Qed.

(** ** Lines *)
Lemma logical_app a b x y : logical None a = Some x -> logical None b = Some y -> logical None (a ++ b) = Some (x ++ y).
Proof.
  intros A B. revert x A. generalize (@None line) as cur. induction a as [|l a IH]; intros cur x A.
  - cbn [logical] in A. destruct cur; [discriminate|]. injection A as <-. exact B.
  - cbn [app logical] in A |- *. destruct (lex l) as [ts|]; [|discriminate]. destruct cur as [[k ts0]|].
    + destruct (opened (ts0 ++ ts) =? 0).
      * destruct (logical None a) as [z|] eqn:E; [|discriminate]. injection A as <-. rewrite (IH _ _ E). reflexivity.
      * destruct (0 <? opened (ts0 ++ ts)); [|discriminate]. apply IH, A.
    + destruct ts as [|t ts]; [apply IH, A|]. destruct (opened (t :: ts) =? 0).
      * destruct (logical None a) as [z|] eqn:E; [|discriminate]. injection A as <-. rewrite (IH _ _ E). reflexivity.
      * destruct (0 <? opened (t :: ts)); [|discriminate]. apply IH, A.
Qed.
Lemma indent_spaces k c s : c <> 32 -> indent (repeat 32 k ++ c :: s) = k.
Proof. intros C. induction k as [|k IH]; cbn [repeat app indent]; [apply Z.eqb_neq in C; now rewrite C|]. change (32 =? 32) with true. now rewrite IH. Qed.
Definition at_col (k : nat) (s : str) : str := repeat 32 k ++ s.

Lemma logical_line k p t l : pieces_ok (tk p t :: l) [] -> opened (t :: toks_of l) = 0 ->
  logical None [at_col k (flat (tk p t :: l))] = Some [(k, t :: toks_of l)].
Proof.
  intros P O. cbn [logical]. unfold at_col. rewrite lex_spaces, (lex_pieces _ P). cbn [toks_of].
  destruct P as (S & _). destruct (spells_first p t S) as (c & r & E & C1 & _). change (flat (tk p t :: l)) with (p ++ flat l). rewrite E. cbn [app].
  rewrite indent_spaces by exact C1. rewrite O. reflexivity.
Qed.
Lemma logical_comment k s : logical None [at_col k (35 :: s)] = Some [].
Proof. cbn [logical]. unfold at_col. rewrite lex_spaces. reflexivity. Qed.
Lemma logical_blank : logical None [[]] = Some [].
Proof. reflexivity. Qed.

(** ** Blocks *)
Definition no_else (k : nat) (ls : list line) : Prop :=
  match ls with (i, t :: _) :: _ => (i =? k)%nat && is_word "else" t = false | _ => True end.
Definition parses (k : nat) (ls : list line) (l : list pstmt) : Prop :=
  no_else k ls /\
  forall rest l2 rest2 n, no_else k rest -> p_block n k rest = Some (l2, rest2) ->
  exists m, p_block m k (ls ++ rest) = Some (l ++ l2, rest2).

Lemma no_else_app k a b : no_else k a -> no_else k b -> no_else k (a ++ b).
Proof. destruct a as [|[i [|t ts]] a]; auto. Qed.
Lemma parses_nil k : parses k [] [].
Proof. split; [exact Logic.I|]. intros rest l2 rest2 n _ H. exists n. exact H. Qed.
Lemma parses_app k a b x y : parses k a x -> parses k b y -> parses k (a ++ b) (x ++ y).
Proof.
  intros (Na & A) (Nb & B). split; [now apply no_else_app|]. intros rest l2 rest2 n N H.
  destruct (B rest l2 rest2 n N H) as (m & E). destruct (A (b ++ rest) (y ++ l2) rest2 m) as (m' & E'); [now apply no_else_app|exact E|].
  exists m'. rewrite <- !app_assoc. exact E'.
Qed.
Lemma parses_reads k txt ls l : logical None txt = Some ls -> parses k ls l -> reads_as k txt l.
Proof.
  intros L (_ & P). destruct (P [] [] [] 1%nat) as (n & E); [exact Logic.I|reflexivity|]. rewrite !app_nil_r in E. exists ls, n. auto.
Qed.

Lemma block_cons k ts r s r' l2 rest2 n m : p_stmt n k ts r = Some (s, r') -> p_block m k r' = Some (l2, rest2) ->
  exists q, p_block q k ((k, ts) :: r) = Some (s :: l2, rest2).
Proof.
  intros A B. exists (S (Nat.max n m)). cbn [p_block]. rewrite Nat.ltb_irrefl.
  rewrite (proj1 (proj2 (block_mono n)) (Nat.max n m) _ _ _ _ ltac:(lia) A). rewrite (proj1 (block_mono m) (Nat.max n m) _ _ _ ltac:(lia) B). reflexivity.
Qed.

Definition simple_head (ts : list token) : Prop :=
  match ts with t :: _ => is_word "if" t = false /\ is_op "@" t = false /\ is_word "def" t = false /\ is_word "else" t = false | [] => False end.
Lemma parses_simple k ts s n : simple_head ts -> p_simple n ts = Some s -> parses k [(k, ts)] [s].
Proof.
  intros H P. destruct ts as [|t ts]; [destruct H|]. destruct H as (H1 & H2 & H3 & H4). split; [cbn [no_else]; rewrite H4; apply andb_false_r|].
  intros rest l2 rest2 m N B. cbn [app].
  apply (block_cons k (t :: ts) rest s rest l2 rest2 (S n) m); [|exact B].
  cbn [p_stmt after_word after_op]. rewrite H1, H2, H3, P. reflexivity.
Qed.

(** the body of a compound statement: what follows is not indented so far *)
Lemma block_col n k rest o : p_block n k rest = Some o -> match rest with (i, _) :: _ => (i <= k)%nat | [] => True end.
Proof.
  destruct n as [|n]; [discriminate|]. destruct rest as [|[i ts] rest]; [auto|]. cbn [p_block].
  destruct (i <? k)%nat eqn:A; [intros _; apply Nat.ltb_lt in A; lia|]. destruct (k <? i)%nat eqn:B; [discriminate|].
  intros _. apply Nat.ltb_ge in B. exact B.
Qed.
Definition starts (k : nat) (ls : list line) : Prop := match ls with (i, _) :: _ => i = k | [] => False end.
Lemma starts_app k a b : starts k a -> starts k (a ++ b).
Proof. destruct a as [|[i ts] a]; [intros []|auto]. Qed.
Lemma suite_ok k k' ls l rest : (k < k')%nat -> starts k' ls -> parses k' ls l ->
  match rest with (i, _) :: _ => (i <= k)%nat | [] => True end ->
  exists n, p_suite n k (ls ++ rest) = Some (l, rest).
Proof.
  intros K St (_ & P) R. destruct (P rest [] rest 1%nat) as (n & E).
  { destruct rest as [|[i [|t ts]] rest]; cbn [no_else]; auto. replace (i =? k')%nat with false; [reflexivity|].
    symmetry. apply Nat.eqb_neq. lia. }
  { cbn [p_block]. destruct rest as [|[i ts] rest]; [reflexivity|]. replace (i <? k')%nat with true by (symmetry; apply Nat.ltb_lt; lia). reflexivity. }
  rewrite app_nil_r in E. exists (S n). cbn [p_suite]. destruct ls as [|[i ts] ls]; [destruct St|]. cbn [starts] in St. subst i. cbn [app] in E |- *.
  replace (k <? k')%nat with true by (symmetry; apply Nat.ltb_lt; lia). exact E.
Qed.

Lemma parses_if k k' ts e body a : gtest ts e -> (k < k')%nat -> starts k' body -> parses k' body a ->
  parses k ((k, word "if" :: ts ++ [op ":"]) :: body) [qIf e a []].
Proof.
  intros Pr K St P. split; [cbn [no_else]; apply andb_false_r|]. intros rest l2 rest2 m N B. cbn [app].
  destruct (gtest_ok ts e [op ":"] Pr) as (n1 & E1); [folt|].
  destruct (suite_ok k k' body a rest K St P (block_col _ _ _ _ B)) as (n2 & E2).
  apply (block_cons k _ (body ++ rest) (qIf e a []) rest l2 rest2 (S (Nat.max n1 n2)) m); [|exact B].
  cbn [p_stmt after_word is_word]. rewrite str_eqb_refl.
  rewrite (test_mono n1 (Nat.max n1 n2) _ _ ltac:(lia) E1). cbn [is_op]. rewrite str_eqb_refl.
  rewrite (proj2 (proj2 (proj2 (block_mono n2))) (Nat.max n1 n2) _ _ _ ltac:(lia) E2).
  destruct rest as [|[i [|w [|c [|x y]]]] rest]; try reflexivity. cbn [no_else] in N. rewrite N. reflexivity.
Qed.
Lemma parses_if_one k ts e one s n0 : gtest ts e -> one <> [] -> p_simple n0 one = Some s ->
  parses k [(k, word "if" :: ts ++ op ":" :: one)] [qIf e [s] []].
Proof.
  intros Pr Ne P. split; [cbn [no_else]; apply andb_false_r|]. intros rest l2 rest2 m N B. cbn [app].
  destruct (gtest_ok ts e (op ":" :: one) Pr) as (n1 & E1); [folt|].
  apply (block_cons k _ rest (qIf e [s] []) rest l2 rest2 (S (Nat.max n1 n0)) m); [|exact B].
  cbn [p_stmt after_word is_word]. rewrite str_eqb_refl.
  rewrite (test_mono n1 (Nat.max n1 n0) _ _ ltac:(lia) E1). cbn [is_op]. rewrite str_eqb_refl.
  destruct one as [|o1 one]; [contradiction|]. rewrite (simple_mono n0 (Nat.max n1 n0) _ _ ltac:(lia) P).
  destruct rest as [|[i [|w [|c [|x y]]]] rest]; try reflexivity. cbn [no_else] in N. rewrite N. reflexivity.
Qed.
Lemma parses_if_else k k' k2 ts e body a body2 b : prints 0 ts e -> (k < k')%nat -> starts k' body -> parses k' body a ->
  (k < k2)%nat -> starts k2 body2 -> parses k2 body2 b ->
  parses k ((k, word "if" :: ts ++ [op ":"]) :: body ++ (k, [word "else"; op ":"]) :: body2) [qIf e a b].
Proof.
  intros Pr K St P K2 St2 P2. split; [cbn [no_else]; apply andb_false_r|]. intros rest l2 rest2 m N B. cbn [app].
  destruct (test_ok ts e [op ":"] Pr) as (n1 & E1); [folt|].
  destruct (suite_ok k k2 body2 b rest K2 St2 P2 (block_col _ _ _ _ B)) as (n3 & E3).
  destruct (suite_ok k k' body a (((k, [word "else"; op ":"]) :: body2) ++ rest) K St P) as (n2 & E2); [cbn; lia|].
  set (n := Nat.max n1 (Nat.max n2 n3)).
  apply (block_cons k _ ((body ++ (k, [word "else"; op ":"]) :: body2) ++ rest) (qIf e a b) rest l2 rest2 (S n) m); [|exact B].
  cbn [p_stmt after_word is_word]. rewrite str_eqb_refl.
  rewrite (test_mono n1 n _ _ ltac:(lia) E1). cbn [is_op]. rewrite str_eqb_refl. rewrite <- (app_assoc body).
  unfold line in *. rewrite (proj2 (proj2 (proj2 (block_mono n2))) n _ _ _ ltac:(lia) E2). cbn [app].
  rewrite Nat.eqb_refl. cbn [andb is_word is_op]. rewrite !str_eqb_refl. cbn [andb].
  rewrite (proj2 (proj2 (proj2 (block_mono n3))) n _ _ _ ltac:(lia) E3). reflexivity.
Qed.

(** parameters *)
Inductive gparams : list token -> list (str * option pexp) -> Prop :=
| gp_nil : gparams [] []
| gp_last x : gparams [KName x] [(x, None)]
| gp_lastd x ts e : prints 0 ts e -> gparams (KName x :: op "=" :: ts) [(x, Some e)]
| gp_cons x ts l : gparams ts l -> existsb (fun p => str_eqb x (fst p)) l = false ->
    gparams (KName x :: op "," :: ts) ((x, None) :: l)
| gp_consd x ts e r l : prints 0 ts e -> gparams r l -> existsb (fun p => str_eqb x (fst p)) l = false ->
    match l with (_, None) :: _ => False | _ => True end ->
    gparams (KName x :: op "=" :: ts ++ op "," :: r) ((x, Some e) :: l).
Lemma params_read ts l : gparams ts l -> forall rest, exists n, p_params n (ts ++ op ")" :: rest) = Some (l, rest).
Proof.
  induction 1 as [|x|x ts e P|x ts l G IH N|x ts e r l P G IH N D]; intros rest.
  - exists 1%nat. reflexivity.
  - exists 1%nat. reflexivity.
  - destruct (test_ok ts e (op ")" :: rest) P) as (n & E); [folt|]. exists (S n). cbn [app p_params after_op is_op].
    rewrite !str_eqb_refl, E. cbn [after_op is_op]. change (str_eqb (lit ")") (lit ",")) with false. rewrite str_eqb_refl. reflexivity.
  - destruct (IH rest) as (n & E). exists (S n). cbn [app p_params after_op is_op]. change (str_eqb (lit ",") (lit "=")) with false.
    cbn [after_op is_op]. rewrite !str_eqb_refl, E, N. reflexivity.
  - destruct (test_ok ts e (op "," :: r ++ op ")" :: rest) P) as (n & E); [folt|]. destruct (IH rest) as (m & E2).
    exists (S (Nat.max n m)). cbn [app p_params after_op is_op]. rewrite <- app_assoc. cbn [app].
    rewrite !str_eqb_refl, (test_mono n (Nat.max n m) _ _ ltac:(lia) E). cbn [after_op is_op]. rewrite str_eqb_refl.
    rewrite (params_mono m (Nat.max n m) _ _ ltac:(lia) E2), N. destruct l as [|[? [?|]] l]; [reflexivity|reflexivity|contradiction].
Qed.

Lemma def_ok k k' d f ts ps body b rest : gparams ts ps -> (k < k')%nat -> starts k' body -> parses k' body b ->
  match rest with (i, _) :: _ => (i <= k)%nat | [] => True end ->
  exists n, p_def n k d (word "def" :: KName f :: op "(" :: ts ++ [op ")"; op ":"]) (body ++ rest) = Some (qDef d f ps b, rest).
Proof.
  intros G K St P R. destruct (params_read ts ps G [op ":"]) as (n1 & E1). destruct (suite_ok k k' body b rest K St P R) as (n2 & E2).
  exists (S (Nat.max n1 n2)). cbn [p_def after_word is_word]. rewrite str_eqb_refl. cbn [is_op]. rewrite str_eqb_refl.
  rewrite (params_mono n1 (Nat.max n1 n2) _ _ ltac:(lia) E1). cbn [is_op]. rewrite str_eqb_refl.
  rewrite (proj2 (proj2 (proj2 (block_mono n2))) (Nat.max n1 n2) _ _ _ ltac:(lia) E2). reflexivity.
Qed.
Definition deco (k : nat) (d : option str) : list line := match d with Some x => [(k, [op "@"; KName x])] | None => [] end.
Lemma parses_def k k' d f ts ps body b : gparams ts ps -> (k < k')%nat -> starts k' body -> parses k' body b ->
  parses k (deco k d ++ (k, word "def" :: KName f :: op "(" :: ts ++ [op ")"; op ":"]) :: body) [qDef d f ps b].
Proof.
  intros G K St P. split; [destruct d; cbn [no_else deco app]; apply andb_false_r|]. intros rest l2 rest2 m N B.
  destruct (def_ok k k' d f ts ps body b rest G K St P (block_col _ _ _ _ B)) as (n & E).
  rewrite <- app_assoc. cbn [app]. destruct d as [d|]; cbn [deco app].
  - apply (block_cons k _ ((k, word "def" :: KName f :: op "(" :: ts ++ [op ")"; op ":"]) :: body ++ rest) (qDef (Some d) f ps b) rest l2 rest2 (S n) m); [|exact B].
    cbn [p_stmt after_word is_word after_op is_op]. rewrite str_eqb_refl, Nat.eqb_refl. exact E.
  - apply (block_cons k _ (body ++ rest) (qDef None f ps b) rest l2 rest2 (S n) m); [|exact B].
    cbn [p_stmt after_word is_word after_op is_op]. change (str_eqb (lit "def") (lit "if")) with false. rewrite str_eqb_refl. exact E.
Qed.

(** simple statements *)
Lemma tests_one ts e rest : prints 0 ts e -> fol0 rest -> after_op "," rest = None ->
  exists n, p_tests n (ts ++ rest) = Some ([e], false, rest).
Proof.
  intros P F C. destruct (test_ok ts e rest P F) as (n & E). exists (S n). cbn [p_tests]. rewrite E, C. reflexivity.
Qed.
Lemma tests_names vs rest : vs <> [] -> rest = [] \/ (exists r, rest = op "=" :: r) ->
  exists n, p_tests n (flat_map (fun v => [KName v; op ","]) vs ++ rest) = Some (map xVar vs, true, rest).
Proof.
  intros N R. induction vs as [|v vs IH]; [contradiction|].
  destruct vs as [|w vs].
  - exists 10%nat. cbn [flat_map app map]. destruct R as [->|(r & ->)]; reflexivity.
  - destruct IH as (n & E); [discriminate|]. exists (S (Nat.max 10 n)).
    change (flat_map (fun v => [KName v; op ","]) (v :: w :: vs) ++ rest) with (KName v :: op "," :: flat_map (fun v => [KName v; op ","]) (w :: vs) ++ rest).
    cbn [p_tests]. rewrite (test_mono 9 (Nat.max 10 n) (KName v :: op "," :: flat_map (fun v => [KName v; op ","]) (w :: vs) ++ rest) (xVar v, op "," :: flat_map (fun v => [KName v; op ","]) (w :: vs) ++ rest));
      [|lia|reflexivity].
    change (after_op "," (op "," :: flat_map (fun v => [KName v; op ","]) (w :: vs) ++ rest)) with (Some (flat_map (fun v => [KName v; op ","]) (w :: vs) ++ rest)).
    apply (tests_mono n (Nat.max 10 n)) in E; [|lia]. cbn [flat_map app] in E |- *. cbn [after_op is_op]. rewrite E. reflexivity.
Qed.
Lemma names_of_vars vs : names_of (map xVar vs) = Some vs.
Proof. induction vs as [|v vs IH]; cbn; [reflexivity|now rewrite IH]. Qed.

Definition plain_first (ts : list token) : Prop :=
  match ts with t :: _ => is_word "return" t = false /\ is_word "raise" t = false /\ is_word "pass" t = false /\
    is_word "if" t = false /\ is_op "@" t = false /\ is_word "def" t = false /\ is_word "else" t = false | [] => False end.
Lemma plain_simple ts rest : plain_first ts -> simple_head (ts ++ rest).
Proof. destruct ts; [intros []|]. cbn. tauto. Qed.

Lemma parses_expr k ts e : prints 0 ts e -> plain_first ts -> parses k [(k, ts)] [qExpr e].
Proof.
  intros P F. destruct (tests_one ts e [] P) as (n & E); [folt|reflexivity|]. rewrite app_nil_r in E.
  apply parses_simple with (n := n); [rewrite <- (app_nil_r ts); now apply plain_simple|].
  destruct ts as [|t ts]; [destruct F|]. destruct F as (F1 & F2 & F3 & _). unfold p_simple. cbn [after_word]. rewrite F1, F2, F3, E. reflexivity.
Qed.
Lemma parses_set k v ts e : prints 0 ts e -> parses k [(k, KName v :: op "=" :: ts)] [qSet (tOne v) e].
Proof.
  intros P. destruct (tests_one ts e [] P) as (n & E); [folt|reflexivity|]. rewrite app_nil_r in E.
  apply parses_simple with (n := Nat.max 10 n); [cbn; tauto|].
  unfold p_simple. cbn [after_word is_word]. rewrite (tests_mono 10 (Nat.max 10 n) (KName v :: op "=" :: ts) ([xVar v], false, op "=" :: ts) ltac:(lia) eq_refl).
  change (aug_op (op "=")) with (@None binop). cbn iota. change (is_op "=" (op "=")) with true. cbn [names_of].
  rewrite (tests_mono n (Nat.max 10 n) _ _ ltac:(lia) E). reflexivity.
Qed.
Lemma parses_set_many k vs ts e : vs <> [] -> prints 0 ts e ->
  parses k [(k, flat_map (fun v => [KName v; op ","]) vs ++ op "=" :: ts)] [qSet (tMany vs) e].
Proof.
  intros N P. destruct (tests_one ts e [] P) as (n & E); [folt|reflexivity|]. rewrite app_nil_r in E.
  destruct (tests_names vs (op "=" :: ts) N) as (m & Em); [right; eauto|].
  apply parses_simple with (n := Nat.max n m); [destruct vs; [contradiction|cbn; tauto]|].
  assert (W : forall w, after_word w (flat_map (fun v => [KName v; op ","]) vs ++ op "=" :: ts) = None) by (intros w; destruct vs; [contradiction|reflexivity]).
  unfold p_simple. rewrite !W. rewrite (tests_mono m (Nat.max n m) _ _ ltac:(lia) Em).
  change (aug_op (op "=")) with (@None binop). cbn iota. change (is_op "=" (op "=")) with true. cbn iota. rewrite names_of_vars.
  rewrite (tests_mono n (Nat.max n m) _ _ ltac:(lia) E). cbn [tuple_of]. destruct vs as [|v [|w vs]]; [contradiction|reflexivity|reflexivity].
Qed.
Lemma parses_aug k v o t ts e : prints 0 ts e -> (o = BXor /\ t = op "^=") \/ (o = BAdd /\ t = op "+=") \/ (o = BMod /\ t = op "%=") ->
  parses k [(k, KName v :: t :: ts)] [qAug v o e].
Proof.
  intros P O. destruct (test_ok ts e [] P) as (n & E); [folt|]. rewrite app_nil_r in E.
  apply parses_simple with (n := Nat.max 10 n); [cbn; tauto|].
  destruct O as [(-> & ->)|[(-> & ->)|(-> & ->)]]; unfold p_simple; cbn [after_word is_word].
  - rewrite (tests_mono 10 (Nat.max 10 n) (KName v :: op "^=" :: ts) ([xVar v], false, op "^=" :: ts) ltac:(lia) eq_refl).
    change (aug_op (op "^=")) with (Some BXor). cbn iota. rewrite (test_mono n (Nat.max 10 n) _ _ ltac:(lia) E). reflexivity.
  - rewrite (tests_mono 10 (Nat.max 10 n) (KName v :: op "+=" :: ts) ([xVar v], false, op "+=" :: ts) ltac:(lia) eq_refl).
    change (aug_op (op "+=")) with (Some BAdd). cbn iota. rewrite (test_mono n (Nat.max 10 n) _ _ ltac:(lia) E). reflexivity.
  - rewrite (tests_mono 10 (Nat.max 10 n) (KName v :: op "%=" :: ts) ([xVar v], false, op "%=" :: ts) ltac:(lia) eq_refl).
    change (aug_op (op "%=")) with (Some BMod). cbn iota. rewrite (test_mono n (Nat.max 10 n) _ _ ltac:(lia) E). reflexivity.
Qed.
Lemma parses_return k ts e : prints 0 ts e -> parses k [(k, word "return" :: ts)] [qReturn e].
Proof.
  intros P. destruct (tests_one ts e [] P) as (n & E); [folt|reflexivity|]. rewrite app_nil_r in E.
  apply parses_simple with (n := n); [cbn; tauto|]. unfold p_simple. cbn [after_word is_word]. rewrite str_eqb_refl, E. reflexivity.
Qed.
Lemma parses_return_names k vs : vs <> [] ->
  parses k [(k, word "return" :: flat_map (fun v => [KName v; op ","]) vs)] [qReturn (xTup (map xVar vs))].
Proof.
  intros N. destruct (tests_names vs [] N) as (m & Em); [now left|]. rewrite app_nil_r in Em.
  apply parses_simple with (n := m); [cbn; tauto|]. unfold p_simple. cbn [after_word is_word]. rewrite str_eqb_refl, Em.
  destruct vs as [|v [|w vs]]; [contradiction|reflexivity|reflexivity].
Qed.
Lemma parses_raise k ts e : prints 0 ts e -> parses k [(k, word "raise" :: ts)] [qRaise e].
Proof.
  intros P. destruct (test_ok ts e [] P) as (n & E); [folt|]. rewrite app_nil_r in E.
  apply parses_simple with (n := n); [cbn; tauto|]. unfold p_simple. cbn [after_word is_word].
  change (str_eqb (lit "raise") (lit "return")) with false. rewrite str_eqb_refl, E. reflexivity.
Qed.
