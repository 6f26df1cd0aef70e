(** Writing expressions and statements of PySyntax.v: the canonical text of
    an expression ([sh]); lines and blocks that are read as given statements. *)
From Coq Require Import Strings.String.
From Verif Require Import Base BaseFacts Spec Case CaseFacts Loader Repr ReprSpec ReprParse PyExpr PySyntax PySyntaxFacts.
From Verif Require PyExprFacts.
From Coq Require Import Lists.List.
Local Notation length := Datatypes.length.
Local Open Scope string_scope.
Local Open Scope list_scope.
Local Open Scope Z_scope.

Definition name (n : str) : Prop := ident n = true /\ keyword n = false.

Ltac spelled_all := repeat (apply Forall_cons; [first [exact Logic.I|apply sp_op; reflexivity|apply sp_word; reflexivity|apply sp_name; assumption|assumption]|]); apply Forall_nil.

(** ** Pieces which may stand side by side *)
Definition kop (s : string) : piece := tk (lit s) (op s).
Definition ok_next (t t' : token) : bool :=
  match t with
  | KName _ | KWord _ => match t' with KOp o => true | _ => false end
  | KNum _ | KFloat _ => match t' with KOp o => existsb (str_eqb o) (map lit [","; ")"; ":"; "("; "="]) | _ => false end
  | KStr _ | KBytes _ => match t' with KOp o => true | _ => false end
  | KOp o =>
      if existsb (str_eqb o) (map lit ["("; ")"; ","; "."; ":"; "@"]) then true
      else if existsb (str_eqb o) (map lit ["="; "-"]) then
        match t' with KOp o' => existsb (str_eqb o') (map lit ["("; ")"; "-"]) | _ => true end
      else false
  end.
Fixpoint okb (l : list piece) : bool :=
  match l with
  | [] => true
  | sp :: r => okb r
  | tk _ t :: r => (match r with tk _ t' :: _ => ok_next t t' | _ => true end) && okb r
  end.
Definition spelled (x : piece) : Prop := match x with sp => True | tk p t => spells p t end.
Definition good (l : list piece) : Prop := Forall spelled l /\ okb l = true.

Lemma op_chars o : op_ok o = true -> exists c r, o = c :: r /\ ident_char c = false /\ quote c = false.
Proof. intros H. destruct (op_first o H) as (c & r & -> & Q & _ & I & _). eauto. Qed.
Lemma digit_not c : digit c = true -> c <> 61 /\ c <> 62 /\ c <> 45.
Proof. unfold digit. lia. Qed.
Lemma ident_not c : ident_char c = true -> c <> 61 /\ c <> 62 /\ c <> 45.
Proof. intros H. repeat split; intros ->; discriminate H. Qed.
Lemma existsb_in o l : existsb (str_eqb o) l = true -> In o l.
Proof. intros H. apply existsb_exists in H. destruct H as (x & I & E). apply str_eqb_spec in E. now subst x. Qed.

Lemma sep_next t p' t' rest : op_ok (match t with KOp o => o | _ => lit "(" end) = true ->
  spells p' t' -> ok_next t t' = true -> sep t (p' ++ rest).
Proof.
  intros Hop S O.
  assert (Hd : exists c r, p' = c :: r /\ ((ident_char c = true /\ (exists n, t' = KName n \/ t' = KWord n)) \/ digit c = true \/ (c = 39 \/ c = 98 \/ c = 34) \/ (exists o, t' = KOp o /\ p' = o /\ op_ok o = true))).
  { destruct S as [n N K|n N K|z Z0|s (D & E)|s P|b| |s P|o Oo|h Nh Hh].
    - destruct (PyExprFacts.ident_first n N) as (c & r & E & _ & I). exists c, r. split; [exact E|]. left. eauto.
    - destruct (PyExprFacts.ident_first n N) as (c & r & E & _ & I). exists c, r. split; [exact E|]. left. eauto.
    - destruct (PyExprFacts.dec_nat_head z Z0) as (c & r & E & D & _). exists c, r. split; [exact E|]. right; left. exact D.
    - destruct s as [|c s]; [contradiction|]. exists c, s. split; [reflexivity|]. right; left. exact D.
    - eexists _, _. split; [reflexivity|]. right; right; left. auto.
    - eexists _, _. split; [reflexivity|]. right; right; left. auto.
    - eexists _, _. split; [reflexivity|]. right; right; left. auto.
    - eexists _, _. split; [reflexivity|]. right; right; left. auto.
    - destruct (op_first o Oo) as (c & r & E & _). exists c, r. split; [exact E|]. right; right; right. eauto.
    - eexists _, _. split; [reflexivity|]. right; left. reflexivity. }
  destruct Hd as (c & r & E & Hd). rewrite E. cbn [app sep].
  destruct t as [n|n|z|f|s|b|o]; cbn [ok_next] in O.
  - destruct t' as [| | | | | |o]; try discriminate O. inversion S as [| | | | | | | |? Oo Eo Eo'|]; subst. destruct (op_chars _ Oo) as (c' & r' & Ec & I & Q). injection Ec as <- <-. auto.
  - destruct t' as [| | | | | |o]; try discriminate O. inversion S as [| | | | | | | |? Oo Eo Eo'|]; subst. destruct (op_chars _ Oo) as (c' & r' & Ec & I & Q). injection Ec as <- <-. auto.
  - destruct t' as [| | | | | |o]; try discriminate O. inversion S as [| | | | | | | |? Oo Eo Eo'|]; subst. apply existsb_in in O. cbn in O.
    repeat (destruct O as [O|O]; [injection O as <- <-; repeat split; (reflexivity || discriminate)|]). destruct O.
  - destruct t' as [| | | | | |o]; try discriminate O. inversion S as [| | | | | | | |? Oo Eo Eo'|]; subst. apply existsb_in in O. cbn in O.
    repeat (destruct O as [O|O]; [injection O as <- <-; repeat split; (reflexivity || discriminate)|]). destruct O.
  - exact Logic.I.
  - exact Logic.I.
  - destruct (existsb (str_eqb o) (map lit ["("; ")"; ","; "."; ":"; "@"])) eqn:A.
    + apply existsb_in in A. cbn in A.
      assert (X : forall a, In a [40; 41; 44; 46; 58; 64] -> existsb (str_eqb [a; c]) op2 = false).
      { intros a Ha. destruct (existsb (str_eqb [a; c]) op2) eqn:Eb; [|reflexivity]. apply existsb_in in Eb. vm_compute in Eb.
        exfalso. repeat (destruct Eb as [Eb|Eb]; [injection Eb as Eb1 Eb2; cbn in Ha; lia|]). destruct Eb. }
      repeat (destruct A as [A|A]; [subst o; apply X; cbn; tauto|]). destruct A.
    + destruct (existsb (str_eqb o) (map lit ["="; "-"])) eqn:B; [|discriminate].
      assert (C : c <> 61 /\ c <> 62).
      { destruct Hd as [(I & _)|[D|[C|(o' & -> & Ep & Oo)]]].
        - apply ident_not in I. tauto.
        - apply digit_not in D. tauto.
        - lia.
        - apply existsb_in in O. cbn in O. rewrite Ep in E. subst o'. repeat (destruct O as [O|O]; [injection O as <- <-; split; discriminate|]). destruct O. }
      apply existsb_in in B. cbn in B.
      assert (X : forall a, In a [61; 45] -> existsb (str_eqb [a; c]) op2 = false).
      { intros a Ha. destruct (existsb (str_eqb [a; c]) op2) eqn:Eb; [|reflexivity]. apply existsb_in in Eb. vm_compute in Eb.
        exfalso. repeat (destruct Eb as [Eb|Eb]; [injection Eb as Eb1 Eb2; cbn in Ha; lia|]). destruct Eb. }
      repeat (destruct B as [B|B]; [subst o; apply X; cbn; tauto|]). destruct B.
Qed.
Lemma spells_op p t : spells p t -> op_ok (match t with KOp o => o | _ => lit "(" end) = true.
Proof. destruct 1; try reflexivity. assumption. Qed.
Lemma sep_space t rest : op_ok (match t with KOp o => o | _ => lit "(" end) = true -> sep t (32 :: rest).
Proof.
  intros H. destruct t as [n|n|z|f|s|b|o]; try (split; reflexivity); try exact Logic.I.
  - repeat split; (reflexivity || discriminate).
  - repeat split; (reflexivity || discriminate).
  - destruct (op_first o H) as (c & r & -> & _ & _ & _ & _ & _ & R). cbn [sep]. destruct r; [|exact Logic.I].
    destruct (existsb (str_eqb [c; 32]) op2) eqn:Eb; [|reflexivity]. apply existsb_in in Eb. vm_compute in Eb.
    exfalso. repeat (destruct Eb as [Eb|Eb]; [discriminate Eb|]). destruct Eb.
Qed.
Lemma good_ok l : good l -> pieces_ok l [].
Proof.
  intros (F & O). induction F as [|x l Sx F IH]; [exact Logic.I|]. destruct x as [|p t]; cbn [okb pieces_ok] in *; [auto|].
  apply andb_prop in O. destruct O as (O1 & O2). split; [exact Sx|]. split; [|auto]. rewrite app_nil_r.
  destruct l as [|[|p' t'] l]; [exact Logic.I|apply sep_space; eapply spells_op; exact Sx|].
  inversion F; subst. change (flat (tk p' t' :: l)) with (p' ++ flat l). apply sep_next with (t' := t'); [eapply spells_op; exact Sx|assumption|exact O1].
Qed.

Definition firstp (l : list piece) : option token := match l with tk _ t :: _ => Some t | _ => None end.
Fixpoint lastp (l : list piece) : option token :=
  match l with
  | [] => None
  | [x] => match x with tk _ t => Some t | sp => None end
  | _ :: r => lastp r
  end.
Definition joint (a b : list piece) : bool :=
  match lastp a, firstp b with Some t, Some t' => ok_next t t' | _, _ => true end.
Lemma okb_app a b : okb a = true -> okb b = true -> joint a b = true -> okb (a ++ b) = true.
Proof.
  unfold joint. induction a as [|x a IH]; intros A B J; [exact B|]. destruct a as [|y a].
  - destruct x as [|p t]; cbn [app okb lastp] in *; [exact B|]. destruct b as [|[|p' t'] b]; cbn [firstp] in *; [reflexivity|exact B|].
    rewrite J. exact B.
  - change (lastp (x :: y :: a)) with (lastp (y :: a)) in J. destruct x as [|p t].
    + change (okb ((y :: a) ++ b) = true). apply IH; [exact A|exact B|exact J].
    + cbn [okb] in A. apply andb_prop in A. destruct A as (A1 & A2).
      change (((match (y :: a) ++ b with tk _ t' :: _ => ok_next t t' | _ => true end) && okb ((y :: a) ++ b))%bool = true).
      rewrite IH by assumption. rewrite andb_true_r. exact A1.
Qed.
Lemma good_app a b : good a -> good b -> joint a b = true -> good (a ++ b).
Proof. intros (A1 & A2) (B1 & B2) J. split; [apply Forall_app; auto|now apply okb_app]. Qed.
Lemma lastp_app a b : b <> [] -> lastp (a ++ b) = lastp b.
Proof.
  intros N. induction a as [|x a IH]; [reflexivity|]. cbn [app lastp]. destruct (a ++ b) eqn:E; [|exact IH].
  destruct a; [contradiction|discriminate].
Qed.
Lemma firstp_app a b t : firstp a = Some t -> firstp (a ++ b) = Some t.
Proof. destruct a as [|[|]]; [discriminate|discriminate|auto]. Qed.

(** ** Expressions *)
Fixpoint commas (l : list (list piece)) : list piece :=
  match l with
  | [] => []
  | [x] => x
  | x :: r => x ++ kop "," :: sp :: commas r
  end.
Definition const_str (c : const) : str := match c with CNone => lit "None" | CTrue => lit "True" | CFalse => lit "False" end.
Definition cmp_pieces (o : cmpop) : list piece :=
  match o with
  | CEq => [sp; kop "=="; sp] | CNe => [sp; kop "!="; sp]
  | CIs => [sp; tk (lit "is") (word "is"); sp]
  | CIsNot => [sp; tk (lit "is") (word "is"); sp; tk (lit "not") (word "not"); sp]
  end.
Definition bin_pieces (o : binop) : list piece := match o with BXor => [sp; kop "^"; sp] | BAdd => [sp; kop "+"; sp] | BMod => [sp; kop "%"; sp] end.
Fixpoint pcs (e : pexp) : list piece :=
  match e with
  | xNum z => [tk (dec_nat z) (KNum z)]
  | xFlo s => [tk s (KFloat s)]
  | xStr s => [tk (39 :: s ++ [39]) (KStr s)]
  | xByt b => [tk (98 :: bytes_repr b) (KBytes b)]
  | xConst c => [tk (const_str c) (const_tok c)]
  | xVar n => [tk n (KName n)]
  | xDot e n => pcs e ++ [kop "."; tk n (KName n)]
  | xApp f args kws =>
      pcs f ++ kop "(" :: commas (map pcs args ++ map (fun kw => tk (fst kw) (KName (fst kw)) :: kop "=" :: pcs (snd kw)) kws) ++ [kop ")"]
  | xTup l => kop "(" :: commas (map pcs l) ++ [kop ","; kop ")"]
  | xNeg e => kop "-" :: pcs e
  | xBin o a b => pcs a ++ bin_pieces o ++ pcs b
  | xCmp o a b => pcs a ++ cmp_pieces o ++ pcs b
  | xNot e => tk (lit "not") (word "not") :: sp :: pcs e
  | xNil => [kop "["; kop "]"]
  | xBool o a b => kop "(" :: (pcs a ++ sp :: tk (match o with OAnd => lit "and" | OOr => lit "or" end) (bool_tok o) :: sp :: pcs b) ++ [kop ")"]
  end.
(** the text of an expression *)
Definition sh (e : pexp) : str := flat (pcs e).

Definition lvl (e : pexp) : nat :=
  match e with xNeg _ => 3 | xBin BXor _ _ => 1 | xBin _ _ _ => 2 | xCmp _ _ _ | xNot _ => 0 | _ => 4 end%nat.
Definition dotable (e : pexp) : bool := match e with xVar _ | xDot _ _ | xApp _ _ _ => true | _ => false end.
Fixpoint distinct (l : list str) : bool :=
  match l with [] => true | x :: r => negb (existsb (str_eqb x) r) && distinct r end.
Fixpoint wfx (e : pexp) : Prop :=
  let all := (fix all l := match l with [] => True | x :: r => wfx x /\ all r end) in
  match e with
  | xNum z => 0 <= z
  | xFlo s => PyExprFacts.float_text s
  | xStr s => plain s
  | xByt _ | xConst _ => True
  | xVar n => name n
  | xDot a n => wfx a /\ dotable a = true /\ name n
  | xApp f args kws =>
      wfx f /\ dotable f = true /\ all args /\
      (fix allk l := match l with [] => True | kw :: r => (name (fst kw) /\ wfx (snd kw)) /\ allk r end) kws /\
      distinct (map fst kws) = true
  | xTup l => l <> [] /\ all l
  | xNeg a => wfx a /\ (3 <= lvl a)%nat
  | xBin BXor a b => wfx a /\ wfx b /\ (2 <= lvl a)%nat /\ (2 <= lvl b)%nat
  | xBin _ a b => wfx a /\ wfx b /\ (3 <= lvl a)%nat /\ (3 <= lvl b)%nat
  | xCmp _ a b => wfx a /\ wfx b /\ (1 <= lvl a)%nat /\ (1 <= lvl b)%nat
  | xNot a => wfx a
  | xNil | xBool _ _ _ => False           (* not written by [sh] *)
  end.

Section ind.
  Variable P : pexp -> Prop.
  Hypothesis Hnum : forall z, P (xNum z).
  Hypothesis Hflo : forall s, P (xFlo s).
  Hypothesis Hstr : forall s, P (xStr s).
  Hypothesis Hbyt : forall b, P (xByt b).
  Hypothesis Hconst : forall c, P (xConst c).
  Hypothesis Hvar : forall n, P (xVar n).
  Hypothesis Hdot : forall e n, P e -> P (xDot e n).
  Hypothesis Happ : forall f args kws, P f -> Forall P args -> Forall (fun kw => P (snd kw)) kws -> P (xApp f args kws).
  Hypothesis Htup : forall l, Forall P l -> P (xTup l).
  Hypothesis Hneg : forall e, P e -> P (xNeg e).
  Hypothesis Hbin : forall o a b, P a -> P b -> P (xBin o a b).
  Hypothesis Hcmp : forall o a b, P a -> P b -> P (xCmp o a b).
  Hypothesis Hnot : forall e, P e -> P (xNot e).
  Hypothesis Hnil : P xNil.
  Hypothesis Hbool : forall o a b, P a -> P b -> P (xBool o a b).
  Fixpoint pexp_ind' (e : pexp) : P e :=
    let all := fix all l : Forall P l := match l with [] => Forall_nil _ | x :: r => Forall_cons _ (pexp_ind' x) (all r) end in
    match e with
    | xNum z => Hnum z | xFlo s => Hflo s | xStr s => Hstr s | xByt b => Hbyt b | xConst c => Hconst c | xVar n => Hvar n
    | xDot e n => Hdot e n (pexp_ind' e)
    | xApp f args kws =>
        Happ f args kws (pexp_ind' f) (all args)
          ((fix allk l : Forall (fun kw => P (snd kw)) l := match l with [] => Forall_nil _ | x :: r => Forall_cons _ (pexp_ind' (snd x)) (allk r) end) kws)
    | xTup l => Htup l (all l)
    | xNeg e => Hneg e (pexp_ind' e)
    | xBin o a b => Hbin o a b (pexp_ind' a) (pexp_ind' b)
    | xCmp o a b => Hcmp o a b (pexp_ind' a) (pexp_ind' b)
    | xNot e => Hnot e (pexp_ind' e)
    | xNil => Hnil
    | xBool o a b => Hbool o a b (pexp_ind' a) (pexp_ind' b)
    end.
End ind.

Lemma prints_down m l ts e : prints m ts e -> (l <= m)%nat -> (m <= 4)%nat -> prints l ts e.
Proof.
  intros P L M. remember (m - l)%nat as d eqn:D. revert l L D. induction d as [|d IH]; intros l L D.
  - replace l with m by lia. exact P.
  - apply g_up; [lia|]. apply IH; lia.
Qed.
Lemma opened_app a b : opened (a ++ b) = opened a + opened b.
Proof. induction a as [|[] a IH]; cbn [app opened]; lia. Qed.

Definition lead (t : token) : bool := match t with KOp o => existsb (str_eqb o) (map lit ["("; "-"]) | _ => true end.
Definition tail (t : token) : bool := match t with KOp o => str_eqb o (lit ")") | _ => true end.
Definition tail4 (t : token) : bool := match t with KName _ => true | KOp o => str_eqb o (lit ")") | _ => false end.

Record shown (e : pexp) : Prop := mkshown {
  h_good : good (pcs e);
  h_first : exists t, firstp (pcs e) = Some t /\ lead t = true;
  h_last : exists t, lastp (pcs e) = Some t /\ tail t = true /\ (dotable e = true -> tail4 t = true);
  h_open : opened (toks_of (pcs e)) = 0;
  h_prints : prints (lvl e) (toks_of (pcs e)) e }.
Lemma shown_prints e l : shown e -> (l <= lvl e)%nat -> prints l (toks_of (pcs e)) e.
Proof. intros H L. apply prints_down with (m := lvl e); [apply h_prints, H|exact L|]. destruct e as [| | | | | | | | | | |[] | | |]; cbn; lia. Qed.

(** lists of expressions *)
Record shown_list (l : list piece) : Prop := mksl {
  l_good : good l;
  l_first : l = [] \/ exists t, firstp l = Some t /\ lead t = true;
  l_last : l = [] \/ exists t, lastp l = Some t /\ tail t = true;
  l_open : opened (toks_of l) = 0 }.

Lemma tail_next t o : tail t = true -> In o (map lit [","; ")"; ":"]) -> ok_next t (KOp o) = true.
Proof.
  intros T I. destruct t as [| | | | | |o']; cbn [ok_next]; try reflexivity.
  - cbn in I. repeat (destruct I as [<-|I]; [reflexivity|]). destruct I.
  - cbn in I. repeat (destruct I as [<-|I]; [reflexivity|]). destruct I.
  - cbn [tail] in T. apply str_eqb_spec in T. subst o'. reflexivity.
Qed.
Lemma tail4_next t o : tail4 t = true -> In o (map lit ["."; "("]) -> ok_next t (KOp o) = true.
Proof.
  intros T I. destruct t as [| | | | | |o']; cbn [tail4] in T; try discriminate; [reflexivity|]. apply str_eqb_spec in T. subst o'. reflexivity.
Qed.
Lemma lead_after o t : In o (map lit ["("; ","; "="; "-"]) -> lead t = true -> ok_next (KOp o) t = true.
Proof.
  intros I L. cbn in I. destruct t as [| | | | | |o']; try solve [repeat (destruct I as [<-|I]; [reflexivity|]); destruct I].
  cbn [lead] in L. apply existsb_in in L. cbn in L.
  destruct L as [<-|[<-|[]]]; (repeat (destruct I as [<-|I]; [reflexivity|]); destruct I).
Qed.
Lemma kop_good s : op_ok (lit s) = true -> good [kop s].
Proof. intros H. split; [|reflexivity]. apply Forall_cons; [apply sp_op; exact H|apply Forall_nil]. Qed.

Lemma commas_ne l : Forall (fun x => x <> []) l -> l <> [] -> commas l <> [].
Proof.
  intros F N. destruct F as [|x l Nx F]; [contradiction|]. destruct l; cbn [commas]; [exact Nx|]. destruct x; [contradiction|discriminate].
Qed.
Lemma commas_shown l : Forall (fun x => shown_list x /\ x <> []) l -> shown_list (commas l).
Proof.
  induction l as [|x l IH]; intros F.
  - split; [split; [constructor|reflexivity]|now left|now left|reflexivity].
  - inversion F as [|? ? (Hx & Nx) Fl]; subst. destruct l as [|y l]; [exact Hx|]. specialize (IH Fl).
    assert (Ne : commas (y :: l) <> []).
    { apply commas_ne; [|discriminate]. eapply Forall_impl; [|exact Fl]. now intros a (_ & A). }
    change (commas (x :: y :: l)) with (x ++ kop "," :: sp :: commas (y :: l)). set (r := commas (y :: l)) in *. clearbody r. destruct Hx as [G1 F1 L1 O1], IH as [G2 F2 L2 O2].
    destruct F1 as [F1|(t1 & F1 & D1)]; [contradiction|]. destruct L1 as [L1|(u1 & L1 & T1)]; [contradiction|].
    destruct L2 as [L2|(u2 & L2 & T2)]; [contradiction|].
    split.
    + apply good_app; [exact G1| |].
      * destruct G2 as (S2 & K2). split; [constructor; [apply sp_op; reflexivity|constructor; [exact Logic.I|exact S2]]|exact K2].
      * unfold joint. rewrite L1. cbn [firstp kop]. apply tail_next; [exact T1|cbn; tauto].
    + right. exists t1. split; [now apply firstp_app|exact D1].
    + right. exists u2. split; [|exact T2]. rewrite lastp_app by discriminate. destruct r; [contradiction|exact L2].
    + rewrite toks_app, opened_app, O1. cbn. exact O2.
Qed.
Lemma shown_one e : shown e -> shown_list (pcs e) /\ pcs e <> [].
Proof.
  intros [G (t & F & L) (u & La & T & _) O P]. split; [|intros N; rewrite N in F; discriminate].
  split; [exact G|right; eauto|right; eauto|exact O].
Qed.
Lemma shown_kw n e : name n -> shown e -> shown_list (tk n (KName n) :: kop "=" :: pcs e).
Proof.
  intros (N1 & N2) [G (t & F & L) (u & La & T & _) O P].
  assert (Ne : pcs e <> []) by (intros N; rewrite N in F; discriminate). split.
  - change (tk n (KName n) :: kop "=" :: pcs e) with ([tk n (KName n)] ++ [kop "="] ++ pcs e). apply good_app; [| |reflexivity].
    { split; [spelled_all|reflexivity]. }
    apply good_app; [apply kop_good; reflexivity|exact G|]. unfold joint. rewrite F. apply lead_after; [cbn; tauto|exact L].
  - right. eexists. split; reflexivity.
  - right. exists u. split; [|exact T]. destruct (pcs e); [contradiction|exact La].
  - cbn [toks_of opened kop]. rewrite O. reflexivity.
Qed.

Lemma toks_commas2 x y l : toks_of (commas (x :: y :: l)) = toks_of x ++ op "," :: toks_of (commas (y :: l)).
Proof. cbn [commas]. rewrite toks_app. reflexivity. Qed.
Lemma existsb_fst {A} x (l : list (str * A)) : existsb (fun kw => str_eqb x (fst kw)) l = existsb (str_eqb x) (map fst l).
Proof. induction l as [|a l IH]; [reflexivity|]. cbn [map existsb]. now rewrite IH. Qed.
Lemma gargs_kws kws : Forall (fun kw : str * pexp => shown (snd kw)) kws -> distinct (map fst kws) = true ->
  gargs (toks_of (commas (map (fun kw => tk (fst kw) (KName (fst kw)) :: kop "=" :: pcs (snd kw)) kws))) [] kws.
Proof.
  intros F. induction F as [|[n e] r H F IH]; intros D; [constructor|]. cbn [map fst distinct] in D. apply andb_prop in D. destruct D as (D1 & D2).
  specialize (IH D2). destruct r as [|[m e2] r].
  - cbn. apply gk_last. cbn [snd] in H. apply shown_prints; [exact H|lia].
  - cbn [map fst snd] in *. rewrite toks_commas2. cbn [toks_of app kop]. apply gk_cons; [apply shown_prints; [exact H|lia]|exact IH|].
    apply negb_true_iff in D1. rewrite <- D1. rewrite existsb_fst. reflexivity.
Qed.
Lemma gargs_ok args kws : Forall shown args -> Forall (fun kw : str * pexp => shown (snd kw)) kws -> distinct (map fst kws) = true ->
  gargs (toks_of (commas (map pcs args ++ map (fun kw => tk (fst kw) (KName (fst kw)) :: kop "=" :: pcs (snd kw)) kws))) args kws.
Proof.
  intros Fa Fk D. pose proof (gargs_kws kws Fk D) as K. induction Fa as [|e args H Fa IH]; [exact K|].
  cbn [map app]. destruct (map pcs args ++ map (fun kw => tk (fst kw) (KName (fst kw)) :: kop "=" :: pcs (snd kw)) kws) as [|y l] eqn:E.
  - apply app_eq_nil in E. destruct E as (E1 & E2). apply map_eq_nil in E1, E2. subst. cbn [commas]. apply ga_last. apply shown_prints; [exact H|lia].
  - rewrite toks_commas2. apply ga_cons; [apply shown_prints; [exact H|lia]|exact IH].
Qed.
Lemma glist_ok l : Forall shown l -> l <> [] -> glist (toks_of (commas (map pcs l)) ++ [op ","]) l true.
Proof.
  intros F N. induction F as [|e l H F IH]; [contradiction|]. destruct l as [|e2 l].
  - cbn [map commas]. apply gl_cons with (r := []) (l := []) (c := false); [apply shown_prints; [exact H|lia]|constructor].
  - cbn [map] in *. rewrite toks_commas2, <- app_assoc. cbn [app]. apply gl_cons with (c := true); [apply shown_prints; [exact H|lia]|]. apply IH. discriminate.
Qed.

Lemma shown_tok p t e : spells p t -> lead t = true -> tail t = true -> (dotable e = true -> tail4 t = true) -> opened [t] = 0 ->
  pcs e = [tk p t] -> prints (lvl e) [t] e -> shown e.
Proof.
  intros S L T T4 O E P. split; rewrite E.
  - split; [spelled_all|reflexivity].
  - exists t. auto.
  - exists t. auto.
  - exact O.
  - exact P.
Qed.
Lemma const_spells c : spells (const_str c) (const_tok c).
Proof. destruct c; apply sp_word; reflexivity. Qed.

Lemma joint_sp a b : joint a (sp :: b) = true.
Proof. unfold joint. cbn [firstp]. now destruct (lastp a). Qed.
Lemma good_mid a m b : good a -> good (sp :: m ++ [sp]) -> good b -> good (a ++ (sp :: m ++ [sp]) ++ b).
Proof.
  intros A M B. apply good_app; [exact A| |].
  - apply good_app; [exact M|exact B|]. unfold joint. change (sp :: m ++ [sp]) with ((sp :: m) ++ [sp]). rewrite lastp_app by discriminate. reflexivity.
  - cbn [app]. apply joint_sp.
Qed.

Theorem wfx_shown e : wfx e -> shown e.
Proof.
  induction e as [z|s|s|b|c|n|e n IH|f args kws IHf IHa IHk|l IHl|e IH|o a b IHa IHb|o a b IHa IHb|e IH| |o a b IHa IHb] using pexp_ind'; intros W.
  - eapply shown_tok with (t := KNum z); try reflexivity; [now apply sp_num|discriminate|apply g_num].
  - eapply shown_tok with (t := KFloat s); try reflexivity; [now apply sp_float|discriminate|apply g_flo].
  - eapply shown_tok with (t := KStr s); try reflexivity; [now apply sp_str|discriminate|apply g_str].
  - eapply shown_tok with (t := KBytes b); try reflexivity; [apply sp_bytes|discriminate|apply g_byt].
  - eapply shown_tok with (t := const_tok c); try reflexivity; try (destruct c; reflexivity); [apply const_spells|discriminate|apply g_const].
  - destruct W as (W1 & W2). eapply shown_tok with (t := KName n); try reflexivity; [now apply sp_name|apply g_var].
  - cbn [wfx] in W. destruct W as (We & Wd & (N1 & N2)). specialize (IH We). destruct IH as [G (t & F & L) (u & La & T & T4) O P].
    assert (Pr : prints 4 (toks_of (pcs e)) e) by (destruct e; try discriminate Wd; exact P).
    cbn [pcs]. split; cbn [pcs].
    + apply good_app; [exact G| |].
      * split; [spelled_all|reflexivity].
      * unfold joint. rewrite La. cbn [firstp kop]. apply tail4_next; [now apply T4|cbn; tauto].
    + exists t. split; [now apply firstp_app|exact L].
    + exists (KName n). split; [rewrite lastp_app by discriminate; reflexivity|]. split; reflexivity.
    + rewrite toks_app, opened_app, O. reflexivity.
    + rewrite toks_app. apply g_dot. exact Pr.
  - cbn [wfx] in W. destruct W as (Wf & Wd & Wa & Wk & D). specialize (IHf Wf). destruct IHf as [G (t & F & L) (u & La & T & T4) O P].
    assert (Pr : prints 4 (toks_of (pcs f)) f) by (destruct f; try discriminate Wd; exact P).
    assert (Fa : Forall shown args).
    { clear - IHa Wa. induction IHa as [|x l H F IH]; constructor; [apply H, Wa|apply IH, Wa]. }
    assert (Fk : Forall (fun kw => shown (snd kw)) kws).
    { clear - IHk Wk. induction IHk as [|x l H F IH]; constructor; [apply H, Wk|apply IH, Wk]. }
    assert (Fn : Forall (fun kw => name (fst kw)) kws).
    { clear - Wk. induction kws as [|x l IH]; constructor; [apply Wk|apply IH, Wk]. }
    set (ps := map pcs args ++ map (fun kw => tk (fst kw) (KName (fst kw)) :: kop "=" :: pcs (snd kw)) kws).
    assert (Hl : shown_list (commas ps)).
    { apply commas_shown. apply Forall_app. split; apply Forall_map.
      - eapply Forall_impl; [|exact Fa]. intros x. apply shown_one.
      - clear - Fk Fn. induction Fk as [|x l H F IH]; constructor; inversion Fn; subst; [|auto]. split; [now apply shown_kw|discriminate]. }
    assert (Hg : gargs (toks_of (commas ps)) args kws) by (apply gargs_ok; assumption).
    assert (E : pcs (xApp f args kws) = pcs f ++ kop "(" :: commas ps ++ [kop ")"]) by reflexivity.
    clearbody ps. destruct Hl as [G2 F2 L2 O2]. split; rewrite E.
    + apply good_app; [exact G| |].
      * change (kop "(" :: commas ps ++ [kop ")"]) with ([kop "("] ++ commas ps ++ [kop ")"]). apply good_app; [apply kop_good; reflexivity| |].
        { apply good_app; [exact G2|apply kop_good; reflexivity|]. unfold joint. destruct L2 as [->|(u2 & L2 & T2)]; [reflexivity|]. rewrite L2. apply tail_next; [exact T2|cbn; tauto]. }
        { unfold joint. destruct F2 as [->|(t2 & F2 & L2')]; [reflexivity|]. rewrite (firstp_app _ _ _ F2). apply lead_after; [cbn; tauto|exact L2']. }
      * unfold joint. rewrite La. cbn [firstp kop]. apply tail4_next; [now apply T4|cbn; tauto].
    + exists t. split; [now apply firstp_app|exact L].
    + exists (op ")"). split; [|split; reflexivity]. rewrite lastp_app by discriminate. change (kop "(" :: commas ps ++ [kop ")"]) with ((kop "(" :: commas ps) ++ [kop ")"]). rewrite lastp_app by discriminate. reflexivity.
    + rewrite toks_app, opened_app, O. cbn [toks_of kop]. rewrite toks_app. cbn [opened]. rewrite opened_app, O2. reflexivity.
    + rewrite toks_app. cbn [toks_of kop]. rewrite toks_app. cbn [toks_of kop]. apply g_app; assumption.
  - cbn [wfx] in W. destruct W as (N & Wl).
    assert (Fa : Forall shown l).
    { clear - IHl Wl. induction IHl as [|x l H F IH]; constructor; [apply H, Wl|apply IH, Wl]. }
    assert (Hl : shown_list (commas (map pcs l))).
    { apply commas_shown. apply Forall_map. eapply Forall_impl; [|exact Fa]. intros x. apply shown_one. }
    pose proof (glist_ok l Fa N) as Hg.
    destruct Hl as [G2 F2 L2 O2]. split; cbn [pcs].
    + change (good ([kop "("] ++ commas (map pcs l) ++ [kop ","; kop ")"])). apply good_app; [apply kop_good; reflexivity| |].
      * apply good_app; [exact G2| |].
        { split; [spelled_all|reflexivity]. }
        unfold joint. destruct L2 as [->|(u2 & L2 & T2)]; [reflexivity|]. rewrite L2. apply tail_next; [exact T2|cbn; tauto].
      * unfold joint. destruct F2 as [->|(t2 & F2 & L2')]; [reflexivity|]. rewrite (firstp_app _ _ _ F2). apply lead_after; [cbn; tauto|exact L2'].
    + eexists. split; reflexivity.
    + exists (op ")"). split; [|split; [reflexivity|discriminate]]. change (kop "(" :: commas (map pcs l) ++ [kop ","; kop ")"]) with ((kop "(" :: commas (map pcs l)) ++ [kop ","; kop ")"]). rewrite lastp_app by discriminate. reflexivity.
    + cbn [toks_of kop opened]. rewrite toks_app, opened_app, O2. reflexivity.
    + cbn [toks_of kop]. rewrite toks_app. cbn [toks_of kop lvl].
      change [op ","; op ")"] with ([op ","] ++ [op ")"]). rewrite app_assoc. apply g_tup with (c := true); [exact Hg|reflexivity].
  - cbn [wfx] in W. destruct W as (We & Lv). specialize (IH We). pose proof (shown_prints e 3 IH Lv) as Pr. destruct IH as [G (t & F & L) (u & La & T & T4) O P].
    assert (Ne : pcs e <> []) by (intros N; rewrite N in F; discriminate).
    split; cbn [pcs].
    + change (good ([kop "-"] ++ pcs e)). apply good_app; [apply kop_good; reflexivity|exact G|]. unfold joint. rewrite F. apply lead_after; [cbn; tauto|exact L].
    + eexists. split; reflexivity.
    + exists u. split; [destruct (pcs e); [contradiction|exact La]|]. split; [exact T|discriminate].
    + cbn [toks_of kop opened]. rewrite O. reflexivity.
    + cbn [toks_of kop]. apply g_neg. exact Pr.
  - assert (Wo : wfx a /\ wfx b /\ (match o with BXor => 2 | _ => 3 end <= lvl a)%nat /\ (match o with BXor => 2 | _ => 3 end <= lvl b)%nat) by (destruct o; exact W).
    destruct Wo as (Wa & Wb & La & Lb). specialize (IHa Wa). specialize (IHb Wb).
    pose proof (shown_prints a _ IHa La) as Pa. pose proof (shown_prints b _ IHb Lb) as Pb.
    destruct IHa as [G (t & F & L) (u & Lt & T & T4) O _]. destruct IHb as [G2 (t2 & F2 & L2) (u2 & Lt2 & T2 & _) O2 _].
    assert (Ne : pcs b <> []) by (intros N; rewrite N in F2; discriminate).
    split; cbn [pcs].
    + destruct o; apply (good_mid (pcs a) [_] (pcs b)); try assumption; (split; [spelled_all|reflexivity]).
    + exists t. split; [now apply firstp_app|exact L].
    + exists u2. split; [|split; [exact T2|discriminate]]. rewrite app_assoc, lastp_app by exact Ne. exact Lt2.
    + rewrite !toks_app, !opened_app, O, O2. destruct o; reflexivity.
    + rewrite !toks_app. destruct o; cbn [bin_pieces toks_of app kop lvl]; [apply (g_sum BAdd)|apply g_xor|apply (g_sum BMod)]; (assumption || discriminate).
  - cbn [wfx] in W. destruct W as (Wa & Wb & La & Lb). specialize (IHa Wa). specialize (IHb Wb).
    pose proof (shown_prints a _ IHa La) as Pa. pose proof (shown_prints b _ IHb Lb) as Pb.
    destruct IHa as [G (t & F & L) (u & Lt & T & T4) O _]. destruct IHb as [G2 (t2 & F2 & L2) (u2 & Lt2 & T2 & _) O2 _].
    assert (Ne : pcs b <> []) by (intros N; rewrite N in F2; discriminate).
    split; cbn [pcs].
    + destruct o.
      * apply (good_mid (pcs a) [_] (pcs b)); try assumption; (split; [spelled_all|reflexivity]).
      * apply (good_mid (pcs a) [_] (pcs b)); try assumption; (split; [spelled_all|reflexivity]).
      * apply (good_mid (pcs a) [_] (pcs b)); try assumption; (split; [spelled_all|reflexivity]).
      * apply (good_mid (pcs a) [_; _; _] (pcs b)); try assumption; (split; [spelled_all|reflexivity]).
    + exists t. split; [now apply firstp_app|exact L].
    + exists u2. split; [|split; [exact T2|discriminate]]. rewrite app_assoc, lastp_app by exact Ne. exact Lt2.
    + rewrite !toks_app, !opened_app, O, O2. destruct o; reflexivity.
    + rewrite !toks_app. replace (toks_of (cmp_pieces o)) with (cmp_toks o) by (destruct o; reflexivity). apply g_cmp; assumption.
  - cbn [wfx] in W. specialize (IH W). pose proof (shown_prints e 0 IH ltac:(lia)) as Pr. destruct IH as [G (t & F & L) (u & La & T & T4) O P].
    assert (Ne : pcs e <> []) by (intros N; rewrite N in F; discriminate).
    split; cbn [pcs].
    + change (good ([tk (lit "not") (word "not")] ++ sp :: pcs e)). apply good_app; [split; [spelled_all|reflexivity]| |apply joint_sp].
      destruct G as (G1 & G2). split; [constructor; [exact Logic.I|exact G1]|exact G2].
    + eexists. split; reflexivity.
    + exists u. split; [destruct (pcs e); [contradiction|exact La]|]. split; [exact T|discriminate].
    + cbn [toks_of opened]. exact O.
    + cbn [toks_of]. apply g_not. exact Pr.
  - destruct W.
  - destruct W.
Qed.

Lemma flat_commas l : flat (commas l) = join_with (lit ", ") (map flat l).
Proof.
  induction l as [|x l IH]; [reflexivity|]. destruct l as [|y l]; [reflexivity|].
  change (commas (x :: y :: l)) with (x ++ kop "," :: sp :: commas (y :: l)). rewrite flat_app.
  change (flat (kop "," :: sp :: commas (y :: l))) with (lit ", " ++ flat (commas (y :: l))). rewrite IH. reflexivity.
Qed.
Definition kw_text (kw : str * pexp) : str := fst kw ++ lit "=" ++ sh (snd kw).
Lemma sh_app f args kws : sh (xApp f args kws) = sh f ++ lit "(" ++ join_with (lit ", ") (map sh args ++ map kw_text kws) ++ lit ")".
Proof.
  unfold sh at 1. cbn [pcs]. rewrite flat_app. change (flat (kop "(" :: ?x)) with (lit "(" ++ flat x). f_equal.
  change (flat (kop "(" :: commas (map pcs args ++ map (fun kw => tk (fst kw) (KName (fst kw)) :: kop "=" :: pcs (snd kw)) kws) ++ [kop ")"]))
    with (lit "(" ++ flat (commas (map pcs args ++ map (fun kw => tk (fst kw) (KName (fst kw)) :: kop "=" :: pcs (snd kw)) kws) ++ [kop ")"])).
  f_equal. rewrite flat_app, flat_commas, map_app, !map_map. reflexivity.
Qed.
Lemma sh_tup l : sh (xTup l) = lit "(" ++ join_with (lit ", ") (map sh l) ++ lit ",)".
Proof.
  unfold sh at 1. cbn [pcs]. change (flat (kop "(" :: commas (map pcs l) ++ [kop ","; kop ")"])) with (lit "(" ++ flat (commas (map pcs l) ++ [kop ","; kop ")"])).
  f_equal. rewrite flat_app, flat_commas, map_map. reflexivity.
Qed.
Lemma sh_dot e n : sh (xDot e n) = sh e ++ lit "." ++ n.
Proof. unfold sh. cbn [pcs]. rewrite flat_app. cbn [flat flat_map spell kop]. now rewrite app_nil_r. Qed.
Lemma sh_var n : sh (xVar n) = n.
Proof. unfold sh. cbn. apply app_nil_r. Qed.
Lemma sh_num z : sh (xNum z) = dec_nat z.
Proof. unfold sh. cbn [pcs flat flat_map spell]. apply app_nil_r. Qed.
Lemma sh_bin o a b : sh (xBin o a b) = sh a ++ match o with BXor => lit " ^ " | BAdd => lit " + " | BMod => lit " % " end ++ sh b.
Proof. unfold sh. cbn [pcs]. rewrite !flat_app. destruct o; reflexivity. Qed.
Lemma sh_cmp o a b : sh (xCmp o a b) = sh a ++ match o with CEq => lit " == " | CNe => lit " != " | CIs => lit " is " | CIsNot => lit " is not " end ++ sh b.
Proof. unfold sh. cbn [pcs]. rewrite !flat_app. destruct o; reflexivity. Qed.

(** ** Blocks of lines *)
Definition block (k : nat) (txt : list str) (l : list pstmt) : Prop :=
  exists ls, logical None txt = Some ls /\ parses k ls l /\ (l <> [] -> starts k ls) /\ (l = [] -> ls = []).
Lemma blk_reads k txt l : block k txt l -> reads_as k txt l.
Proof. intros (ls & L & P & _). eapply parses_reads; eassumption. Qed.
Lemma blk_nil k : block k [] [].
Proof. exists []. split; [reflexivity|]. split; [apply parses_nil|]. split; [contradiction|reflexivity]. Qed.
Lemma blk_app k a b x y : block k a x -> block k b y -> block k (a ++ b) (x ++ y).
Proof.
  intros (ls & L & P & S & N) (ls2 & L2 & P2 & S2 & N2). exists (ls ++ ls2). split; [now apply logical_app|]. split; [now apply parses_app|].
  destruct x as [|q x]; cbn [app].
  - rewrite N by reflexivity. cbn [app]. split; assumption.
  - split; [|discriminate]. intros _. apply starts_app. apply S. discriminate.
Qed.
Lemma blk_cons k t a x y : block k [t] x -> block k a y -> block k (t :: a) (x ++ y).
Proof. exact (blk_app k [t] a x y). Qed.
Lemma blk_blank k j : block k [at_col j []] [].
Proof.
  exists []. split; [|split; [apply parses_nil|split; [contradiction|reflexivity]]]. cbn [logical]. unfold at_col. rewrite lex_spaces. reflexivity.
Qed.
Lemma blk_comment k j s : block k [at_col j (35 :: s)] [].
Proof. exists []. split; [apply logical_comment|]. split; [apply parses_nil|split; [contradiction|reflexivity]]. Qed.
Lemma blk_line k l t q : good l -> firstp l = Some t -> opened (toks_of l) = 0 -> parses k [(k, toks_of l)] [q] -> block k [at_col k (flat l)] [q].
Proof.
  intros G F O P. destruct l as [|[|p t'] l]; try discriminate F. exists [(k, toks_of (tk p t' :: l))].
  split; [apply logical_line; [now apply good_ok|exact O]|]. split; [exact P|]. split; [reflexivity|discriminate].
Qed.

Lemma dot_first e : wfx e -> dotable e = true -> exists n, firstp (pcs e) = Some (KName n).
Proof.
  induction e as [z|s|s|b|c|n|e n IH|f args kws IHf IHa IHk|l IHl|e IH|o a b IHa IHb|o a b IHa IHb|e IH| |o a b IHa IHb] using pexp_ind'; intros W D; try discriminate D.
  - exists n. reflexivity.
  - cbn [wfx] in W. destruct W as (We & Wd & _). destruct (IH We Wd) as (m & E). exists m. cbn [pcs]. now apply firstp_app.
  - cbn [wfx] in W. destruct W as (We & Wd & _). destruct (IHf We Wd) as (m & E). exists m. cbn [pcs]. now apply firstp_app.
Qed.
Lemma blk_expr k e : wfx e -> dotable e = true -> block k [at_col k (sh e)] [qExpr e].
Proof.
  intros W D. destruct (dot_first e W D) as (n & F). pose proof (wfx_shown e W) as H. apply blk_line with (t := KName n); [apply H|exact F|apply H|].
  apply parses_expr; [apply shown_prints; [exact H|lia]|]. destruct (pcs e) as [|[|p t] l]; try discriminate F. injection F as ->. cbn. tauto.
Qed.
Lemma kw_good w : ident (lit w) = true -> keyword (lit w) = true -> good [tk (lit w) (word w)].
Proof. intros A B. split; [apply Forall_cons; [now apply sp_word|apply Forall_nil]|reflexivity]. Qed.
Lemma name_good n : name n -> good [tk n (KName n)].
Proof. intros (A & B). split; [spelled_all|reflexivity]. Qed.
Lemma good_sp l : good l -> good (sp :: l).
Proof. intros (A & B). split; [apply Forall_cons; [exact Logic.I|exact A]|exact B]. Qed.
Lemma good_op s l : op_ok (lit s) = true -> good l -> good (kop s :: sp :: l).
Proof.
  intros H G. change (good ([kop s] ++ sp :: l)). apply good_app; [now apply kop_good|now apply good_sp|apply joint_sp].
Qed.

Definition set_pieces (n : str) (o : string) (e : pexp) : list piece := tk n (KName n) :: sp :: kop o :: sp :: pcs e.
Lemma set_good n o e : name n -> op_ok (lit o) = true -> wfx e -> good (set_pieces n o e).
Proof.
  intros N O W. unfold set_pieces. change (good ([tk n (KName n)] ++ sp :: kop o :: sp :: pcs e)). apply good_app; [now apply name_good| |apply joint_sp].
  apply good_sp. apply good_op; [exact O|]. apply wfx_shown, W.
Qed.
Lemma blk_set k n e : name n -> wfx e -> block k [at_col k (n ++ lit " = " ++ sh e)] [qSet (tOne n) e].
Proof.
  intros N W. pose proof (wfx_shown e W) as H. change (n ++ lit " = " ++ sh e) with (flat (set_pieces n "=" e)).
  apply blk_line with (t := KName n); [now apply set_good|reflexivity| |].
  - cbn. apply H.
  - apply parses_set. apply shown_prints; [exact H|lia].
Qed.
Lemma blk_aug k n o e : name n -> wfx e ->
  block k [at_col k (n ++ match o with BXor => lit " ^= " | BAdd => lit " += " | BMod => lit " %= " end ++ sh e)] [qAug n o e].
Proof.
  intros N W. pose proof (wfx_shown e W) as H.
  replace (n ++ match o with BXor => lit " ^= " | BAdd => lit " += " | BMod => lit " %= " end ++ sh e) with (flat (set_pieces n (match o with BXor => "^=" | BAdd => "+=" | BMod => "%=" end) e)) by (destruct o; reflexivity).
  apply blk_line with (t := KName n); [apply set_good; [exact N|destruct o; reflexivity|exact W]|reflexivity| |].
  - destruct o; cbn; apply H.
  - destruct o; (apply parses_aug; [apply shown_prints; [exact H|lia]|auto]).
Qed.

Definition word_pieces (w : string) (l : list piece) : list piece := tk (lit w) (word w) :: sp :: l.
Lemma word_good w l : ident (lit w) = true -> keyword (lit w) = true -> good l -> good (word_pieces w l).
Proof.
  intros A B G. unfold word_pieces. change (good ([tk (lit w) (word w)] ++ sp :: l)). apply good_app; [now apply kw_good|now apply good_sp|apply joint_sp].
Qed.
Lemma blk_return k e : wfx e -> block k [at_col k (lit "return " ++ sh e)] [qReturn e].
Proof.
  intros W. pose proof (wfx_shown e W) as H. change (lit "return " ++ sh e) with (flat (word_pieces "return" (pcs e))).
  apply blk_line with (t := word "return"); [apply word_good; try reflexivity; apply H|reflexivity| |].
  - cbn. apply H.
  - cbn [toks_of word_pieces]. apply parses_return. apply shown_prints; [exact H|lia].
Qed.
Lemma blk_raise k e : wfx e -> block k [at_col k (lit "raise " ++ sh e)] [qRaise e].
Proof.
  intros W. pose proof (wfx_shown e W) as H. change (lit "raise " ++ sh e) with (flat (word_pieces "raise" (pcs e))).
  apply blk_line with (t := word "raise"); [apply word_good; try reflexivity; apply H|reflexivity| |].
  - cbn. apply H.
  - cbn [toks_of word_pieces]. apply parses_raise. apply shown_prints; [exact H|lia].
Qed.

(** lists of names *)
Definition names_pieces (vs : list str) : list piece := commas (map (fun v => [tk v (KName v)]) vs).
Lemma names_shown vs : Forall name vs -> shown_list (names_pieces vs).
Proof.
  intros F. apply commas_shown. apply Forall_map. eapply Forall_impl; [|exact F]. intros v N. split; [|discriminate].
  split; [now apply name_good|right; eexists; split; reflexivity|right; eexists; split; reflexivity|reflexivity].
Qed.
Lemma names_toks vs : vs <> [] -> toks_of (names_pieces vs) ++ [op ","] = flat_map (fun v => [KName v; op ","]) vs.
Proof.
  unfold names_pieces. induction vs as [|v vs IH]; [contradiction|]. intros _. destruct vs as [|w vs]; [reflexivity|].
  change (map ?f (v :: w :: vs)) with (f v :: f w :: map f vs). cbn [map]. rewrite toks_commas2, <- app_assoc.
  change (flat_map (fun v => [KName v; op ","]) (v :: w :: vs)) with (KName v :: op "," :: flat_map (fun v => [KName v; op ","]) (w :: vs)).
  rewrite <- IH by discriminate. reflexivity.
Qed.
Lemma names_flat vs : flat (names_pieces vs) = join_with (lit ", ") vs.
Proof.
  unfold names_pieces. rewrite flat_commas, map_map. f_equal. rewrite <- (map_id vs) at 2. apply map_ext. intros v. cbn. apply app_nil_r.
Qed.
Lemma blk_set_many k vs e : vs <> [] -> Forall name vs -> wfx e ->
  block k [at_col k (join_with (lit ", ") vs ++ lit ", = " ++ sh e)] [qSet (tMany vs) e].
Proof.
  intros Ne F W. pose proof (wfx_shown e W) as H. destruct (names_shown vs F) as [G Fi La O].
  replace (join_with (lit ", ") vs ++ lit ", = " ++ sh e) with (flat (names_pieces vs ++ kop "," :: sp :: kop "=" :: sp :: pcs e))
    by (rewrite flat_app, names_flat; reflexivity).
  assert (T : toks_of (names_pieces vs ++ kop "," :: sp :: kop "=" :: sp :: pcs e) = flat_map (fun v => [KName v; op ","]) vs ++ op "=" :: toks_of (pcs e)).
  { rewrite <- names_toks by exact Ne. rewrite toks_app, <- app_assoc. reflexivity. }
  assert (N : names_pieces vs <> []).
  { apply commas_ne; [|destruct vs; [contradiction|discriminate]]. apply Forall_map. apply Forall_forall. discriminate. }
  destruct Fi as [Fi|(t & Fi & _)]; [contradiction|]. destruct La as [La|(u & La & Tu)]; [contradiction|].
  apply blk_line with (t := t).
  - apply good_app; [exact G| |].
    + apply good_op; [reflexivity|]. apply good_op; [reflexivity|]. apply H.
    + unfold joint. rewrite La. apply tail_next; [exact Tu|cbn; tauto].
  - now apply firstp_app.
  - rewrite toks_app, opened_app, O. cbn. apply H.
  - rewrite T. apply parses_set_many; [exact Ne|]. apply shown_prints; [exact H|lia].
Qed.
Lemma blk_return_names k vs : vs <> [] -> Forall name vs ->
  block k [at_col k (lit "return " ++ join_with (lit ", ") vs ++ lit ",")] [qReturn (xTup (map xVar vs))].
Proof.
  intros Ne F. destruct (names_shown vs F) as [G Fi La O].
  replace (lit "return " ++ join_with (lit ", ") vs ++ lit ",") with (flat (word_pieces "return" (names_pieces vs ++ [kop ","])))
    by (change (flat (word_pieces "return" (names_pieces vs ++ [kop ","]))) with (lit "return " ++ flat (names_pieces vs ++ [kop ","])); rewrite flat_app, names_flat; reflexivity).
  assert (N : names_pieces vs <> []).
  { apply commas_ne; [|destruct vs; [contradiction|discriminate]]. apply Forall_map. apply Forall_forall. discriminate. }
  destruct La as [La|(u & La & Tu)]; [contradiction|].
  apply blk_line with (t := word "return").
  - apply word_good; try reflexivity. apply good_app; [exact G|apply kop_good; reflexivity|]. unfold joint. rewrite La. apply tail_next; [exact Tu|cbn; tauto].
  - reflexivity.
  - cbn [word_pieces toks_of opened]. rewrite toks_app, opened_app, O. reflexivity.
  - cbn [word_pieces toks_of]. rewrite toks_app. change (toks_of [kop ","]) with [op ","]. rewrite names_toks by exact Ne. apply parses_return_names. exact Ne.
Qed.

(** compound statements *)
Lemma if_line k e : wfx e -> logical None [at_col k (lit "if " ++ sh e ++ lit ":")] = Some [(k, word "if" :: toks_of (pcs e) ++ [op ":"])].
Proof.
  intros W. pose proof (wfx_shown e W) as H. destruct (h_last e H) as (u & La & T & _).
  replace (lit "if " ++ sh e ++ lit ":") with (flat (word_pieces "if" (pcs e ++ [kop ":"])))
    by (change (flat (word_pieces "if" (pcs e ++ [kop ":"]))) with (lit "if " ++ flat (pcs e ++ [kop ":"])); rewrite flat_app; reflexivity).
  unfold word_pieces. rewrite logical_line.
  - cbn [toks_of]. rewrite toks_app. reflexivity.
  - apply good_ok. apply (word_good "if"); try reflexivity. apply good_app; [apply H|apply kop_good; reflexivity|]. unfold joint. rewrite La. apply tail_next; [exact T|cbn; tauto].
  - cbn [toks_of opened]. rewrite toks_app, opened_app, (h_open e H). reflexivity.
Qed.
Lemma blk_if k k' e body a : wfx e -> (k < k')%nat -> a <> [] -> block k' body a ->
  block k (at_col k (lit "if " ++ sh e ++ lit ":") :: body) [qIf e a []].
Proof.
  intros W K Na (ls & L & P & S & _). exists ((k, word "if" :: toks_of (pcs e) ++ [op ":"]) :: ls).
  split; [exact (logical_app [_] body _ ls (if_line k e W) L)|]. split; [|split; [reflexivity|discriminate]].
  apply parses_if with (k' := k'); [apply gb_up, shown_prints; [now apply wfx_shown|lia]|exact K|now apply S|exact P].
Qed.
Lemma blk_if_else k k' k2 e body a body2 b : wfx e -> (k < k')%nat -> (k < k2)%nat -> a <> [] -> b <> [] -> block k' body a -> block k2 body2 b ->
  block k (at_col k (lit "if " ++ sh e ++ lit ":") :: body ++ at_col k (lit "else:") :: body2) [qIf e a b].
Proof.
  intros W K K2 Na Nb (ls & L & P & S & _) (ls2 & L2 & P2 & S2 & _).
  exists ((k, word "if" :: toks_of (pcs e) ++ [op ":"]) :: ls ++ (k, [word "else"; op ":"]) :: ls2).
  assert (El : logical None [at_col k (lit "else:")] = Some [(k, [word "else"; op ":"])]).
  { change (lit "else:") with (flat [tk (lit "else") (word "else"); kop ":"]). rewrite logical_line; [reflexivity| |reflexivity].
    apply good_ok. split; [spelled_all|reflexivity]. }
  split; [|split; [|split; [reflexivity|discriminate]]].
  - apply (logical_app [_] _ _ (ls ++ (k, [word "else"; op ":"]) :: ls2) (if_line k e W)). apply logical_app; [exact L|].
    exact (logical_app [_] body2 _ ls2 El L2).
  - apply parses_if_else with (k' := k') (k2 := k2); [apply shown_prints; [now apply wfx_shown|lia]|exact K|now apply S|exact P|exact K2|now apply S2|exact P2].
Qed.

(** parameters *)
Definition param := (str * option pexp)%type.
Definition par_pieces (p : param) : list piece :=
  match snd p with None => [tk (fst p) (KName (fst p))] | Some e => tk (fst p) (KName (fst p)) :: kop "=" :: pcs e end.
Definition par_text (p : param) : str := match snd p with None => fst p | Some e => kw_text (fst p, e) end.
Fixpoint ordered (ps : list param) : Prop :=
  match ps with
  | [] => True
  | (_, Some _) :: r => match r with (_, None) :: _ => False | _ => True end /\ ordered r
  | _ :: r => ordered r
  end.
Definition par_ok (p : param) : Prop := name (fst p) /\ match snd p with Some e => wfx e | None => True end.
Lemma par_shown p : par_ok p -> shown_list (par_pieces p) /\ par_pieces p <> [].
Proof.
  destruct p as [n [e|]]; intros (N & W); cbn [fst snd par_pieces] in *.
  - split; [apply shown_kw; [exact N|now apply wfx_shown]|discriminate].
  - split; [|discriminate]. split; [now apply name_good|right; eexists; split; reflexivity|right; eexists; split; reflexivity|reflexivity].
Qed.
Lemma gparams_ok ps : Forall par_ok ps -> ordered ps -> distinct (map fst ps) = true -> gparams (toks_of (commas (map par_pieces ps))) ps.
Proof.
  intros F. induction F as [|[n d] r (N & W) F IH]; intros O D; [constructor|]. cbn [map fst distinct] in D. apply andb_prop in D. destruct D as (D1 & D2).
  apply negb_true_iff in D1. rewrite <- existsb_fst in D1. cbn [fst snd] in *. destruct d as [e|].
  - pose proof (shown_prints e 0 (wfx_shown e W) ltac:(lia)) as P. cbn [ordered] in O. destruct O as (O1 & O2). specialize (IH O2 D2). destruct r as [|p2 r].
    + cbn. now apply gp_lastd.
    + cbn [map] in *. rewrite toks_commas2. cbn [par_pieces fst snd toks_of app kop]. apply gp_consd; [exact P|exact IH|exact D1|exact O1].
  - cbn [ordered] in O. specialize (IH O D2). destruct r as [|p2 r].
    + cbn. apply gp_last.
    + cbn [map] in *. rewrite toks_commas2. cbn [par_pieces fst snd toks_of app kop]. apply gp_cons; [exact IH|exact D1].
Qed.
Definition deco_text (k : nat) (d : option str) : list str := match d with Some x => [at_col k (lit "@" ++ x)] | None => [] end.
Definition def_line (k : nat) (f : str) (ps : list param) : str :=
  at_col k (lit "def " ++ f ++ lit "(" ++ join_with (lit ", ") (map par_text ps) ++ lit "):").
Lemma par_flat p : flat (par_pieces p) = par_text p.
Proof. destruct p as [n [e|]]; cbn [par_pieces par_text fst snd]; [reflexivity|]. cbn. apply app_nil_r. Qed.
Lemma def_line_ok k f ps : name f -> Forall par_ok ps ->
  logical None [def_line k f ps] = Some [(k, word "def" :: KName f :: op "(" :: toks_of (commas (map par_pieces ps)) ++ [op ")"; op ":"])].
Proof.
  intros N F. assert (Hl : shown_list (commas (map par_pieces ps))).
  { apply commas_shown. apply Forall_map. eapply Forall_impl; [|exact F]. intros p. apply par_shown. }
  destruct Hl as [G Fi La O]. unfold def_line.
  set (c := commas (map par_pieces ps)) in *.
  assert (Ef : flat c = join_with (lit ", ") (map par_text ps)).
  { unfold c. rewrite flat_commas, map_map. f_equal. apply map_ext. apply par_flat. }
  replace (lit "def " ++ f ++ lit "(" ++ join_with (lit ", ") (map par_text ps) ++ lit "):")
    with (flat (word_pieces "def" (tk f (KName f) :: kop "(" :: c ++ [kop ")"; kop ":"]))).
  2:{ change (flat (word_pieces "def" (tk f (KName f) :: kop "(" :: c ++ [kop ")"; kop ":"]))) with (lit "def " ++ f ++ lit "(" ++ flat (c ++ [kop ")"; kop ":"])).
      rewrite flat_app, Ef. reflexivity. }
  clearbody c. unfold word_pieces. rewrite logical_line.
  - cbn [toks_of kop]. rewrite toks_app. reflexivity.
  - apply good_ok. apply (word_good "def"); try reflexivity. change (good ([tk f (KName f)] ++ [kop "("] ++ c ++ [kop ")"; kop ":"])).
    apply good_app; [now apply name_good| |reflexivity]. apply good_app; [apply kop_good; reflexivity| |].
    + apply good_app; [exact G|split; [spelled_all|reflexivity]|]. unfold joint. destruct La as [->|(u & La & T)]; [reflexivity|]. rewrite La. apply tail_next; [exact T|cbn; tauto].
    + unfold joint. destruct Fi as [->|(t & Fi & L)]; [reflexivity|]. rewrite (firstp_app _ _ _ Fi). apply lead_after; [cbn; tauto|exact L].
  - cbn [toks_of kop opened]. rewrite toks_app, opened_app, O. reflexivity.
Qed.
Lemma blk_def k k' d f ps body b : match d with Some x => name x | None => True end -> name f -> Forall par_ok ps -> ordered ps -> distinct (map fst ps) = true ->
  (k < k')%nat -> b <> [] -> block k' body b ->
  block k (deco_text k d ++ def_line k f ps :: body) [qDef d f ps b].
Proof.
  intros Nd N F O D K Nb (ls & L & P & S & _).
  exists (deco k d ++ (k, word "def" :: KName f :: op "(" :: toks_of (commas (map par_pieces ps)) ++ [op ")"; op ":"]) :: ls).
  split; [|split; [|split; [destruct d; reflexivity|discriminate]]].
  - apply logical_app; [|exact (logical_app [_] body _ ls (def_line_ok k f ps N F) L)]. destruct d as [x|]; [|reflexivity].
    unfold deco_text, deco. replace (lit "@" ++ x) with (flat [kop "@"; tk x (KName x)]) by (cbn; now rewrite app_nil_r).
    unfold kop at 1. rewrite logical_line; [reflexivity| |reflexivity]. apply good_ok.
    change (good ([kop "@"] ++ [tk x (KName x)])). apply good_app; [apply kop_good; reflexivity|now apply name_good|reflexivity].
  - apply parses_def with (k' := k'); [now apply gparams_ok|exact K|now apply S|exact P].
Qed.

(** lines without unknown parts *)
Lemma blk_simple k s t ts q n : lex s = Some (t :: ts) -> indent s = O -> opened (t :: ts) = 0 -> simple_head (t :: ts) -> p_simple n (t :: ts) = Some q ->
  match s with c :: _ => c <> 32 | [] => False end ->
  block k [at_col k s] [q].
Proof.
  intros L I O Sh P C. exists [(k, t :: ts)]. split; [|split; [eapply parses_simple; eassumption|split; [reflexivity|discriminate]]].
  destruct s as [|c s]; [destruct C|]. cbn [logical]. unfold at_col. rewrite lex_spaces, L, indent_spaces by exact C. rewrite O. reflexivity.
Qed.
