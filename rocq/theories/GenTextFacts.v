(** The text of the properties and methods that read fields: what it is read
    as, and what this does. *)
From Coq Require Import Strings.String.
From Verif Require FloatBits Names PyExprFacts.
From Verif Require Import Base BaseFacts Spec Ptr Segment Builder Copy Struct List CopyList Case CaseFacts Loader Repr ReprSpec ReprParse PyExpr
  Ctor PySyntax PySyntaxFacts PyPrint PyRun GenRun GenText TextSpec.
From Coq Require Import Lists.List.
Local Notation length := Datatypes.length.
Local Open Scope string_scope.
Local Open Scope list_scope.
Local Open Scope Z_scope.

(** ** Literals *)
Definition num (z : Z) : pexp := if z <? 0 then xNeg (xNum (- z)) else xNum z.
Definition flo (s : str) : pexp := match s with c :: r => if c =? 45 then xNeg (xFlo r) else xFlo s | [] => xFlo s end.
Lemma sh_neg e : sh (xNeg e) = 45 :: sh e. Proof. reflexivity. Qed.
Lemma sh_numz z : sh (num z) = dec z.
Proof. unfold num, dec. destruct (z <? 0); [rewrite sh_neg|]; now rewrite sh_num. Qed.
Lemma wf_num z : wfx (num z).
Proof. unfold num. destruct (Z.ltb_spec z 0); cbn; try split; lia. Qed.
Lemma lvl_num z : (3 <= lvl (num z))%nat.
Proof. unfold num. destruct (z <? 0); cbn; lia. Qed.
Lemma ev_num w d L e z s : ev (rt w d) L e (num z) s = Ok (XV (PInt z), s).
Proof.
  unfold num. destruct (z <? 0); destruct d; cbn [ev bind rt r_neg r_int x_neg]; now rewrite ?Z.opp_involutive.
Qed.
Lemma flo_ok w s b : float_reads w s b ->
  sh (flo s) = s /\ wfx (flo s) /\ (3 <= lvl (flo s))%nat /\ forall d L e st, ev (rt w d) L e (flo s) st = Ok (XV (PFloat b), st).
Proof.
  intros [(F & E)|(r & -> & F & E)].
  - destruct s as [|c s]; [destruct F as ([] & _)|]. unfold flo. destruct (Z.eqb_spec c 45) as [->|_]; [destruct F as (F & _); discriminate F|].
    split; [unfold sh; cbn [pcs flat flat_map spell]; apply app_nil_r|]. split; [exact F|]. split; [cbn; lia|]. intros d L e st. destruct d; cbn [ev rt r_float]; now rewrite E.
  - unfold flo. change (45 =? 45) with true. cbn iota. split; [rewrite sh_neg; f_equal; unfold sh; cbn [pcs flat flat_map spell]; apply app_nil_r|].
    split; [split; [exact F|cbn; lia]|]. split; [cbn; lia|]. intros d L e st. destruct d; cbn [ev bind rt r_float r_neg x_neg]; now rewrite E.
Qed.

(** the default of a slot *)
Definition slot_ast (fl : Z -> str) (t : ftype) (d : Z) : pexp :=
  match t with
  | TVoid | TText | TData | TStruct | TList _ | TAny => xConst CNone
  | TPrim _ | TEnum => num d
  | TBool => xConst (if negb (d =? 0) then CTrue else CFalse)
  | TFloat32 => flo (fl (FloatBits.to64 d))
  | TFloat64 => flo (fl d)
  end.
Definition slot_float (w : world) (fl : Z -> str) (t : ftype) (d : Z) : Prop :=
  match t with
  | TFloat32 => float_reads w (fl (FloatBits.to64 d)) (FloatBits.to64 d)
  | TFloat64 => float_reads w (fl d) d
  | _ => True
  end.
Lemma slot_ast_ok w fl t d : slot_float w fl t d ->
  sh (slot_ast fl t d) = slot_text fl t d /\ wfx (slot_ast fl t d) /\ (3 <= lvl (slot_ast fl t d))%nat /\
  forall dp L e st, ev (rt w dp) L e (slot_ast fl t d) st = Ok (XV (slot_default t d), st).
Proof.
  intros F. destruct t; cbn [slot_ast slot_text slot_default slot_float] in *.
  all: try (split; [reflexivity|]; split; [exact Logic.I|]; split; [cbn; lia|]; intros dp L e st; destruct dp; reflexivity).
  - split; [apply sh_numz|]. split; [apply wf_num|]. split; [apply lvl_num|]. intros. apply ev_num.
  - apply flo_ok, F.
  - apply flo_ok, F.
  - split; [destruct (negb (d =? 0)); reflexivity|]. split; [exact Logic.I|]. split; [cbn; lia|]. intros dp L e st. destruct dp, (negb (d =? 0)); reflexivity.
  - split; [apply sh_numz|]. split; [apply wf_num|]. split; [apply lvl_num|]. intros. apply ev_num.
Qed.

(** ** Names *)
Lemma cls_sh s e : cls_text s e -> sh e = s /\ wfx e /\ dotable e = true.
Proof.
  induction 1 as [n N U B|s e n H (IH1 & IH2 & IH3) N].
  - split; [apply sh_var|]. split; [exact N|reflexivity].
  - split; [rewrite sh_dot, IH1; reflexivity|]. split; [|reflexivity]. cbn [wfx]. auto.
Qed.
Lemma item_sh s e : item_text s e -> sh e = s /\ wfx e /\ dotable e = true.
Proof.
  induction 1 as [s e H|s e H|s e t x H Hx (IH1 & IH2 & IH3)].
  - now apply cls_sh.
  - destruct (cls_sh s e H) as (A & B & C). split; [rewrite sh_app, A; reflexivity|]. split; [|reflexivity]. cbn [wfx]. auto.
  - destruct (cls_sh s e H) as (A & B & C). split; [|split; [|reflexivity]].
    + rewrite sh_app, A. cbn [map app join_with]. rewrite IH1. reflexivity.
    + cbn [wfx]. auto 10.
Qed.
Definition lower (L : list str) : Prop := Forall (fun n => upper_or_underscore n = false \/ n = lit "_buf") L.
Lemma lower_not L n : lower L -> upper_or_underscore n = true -> n <> lit "_buf" -> existsb (str_eqb n) L = false.
Proof.
  intros F U B. destruct (existsb (str_eqb n) L) eqn:E; [|reflexivity]. apply existsb_in in E. destruct (proj1 (Forall_forall _ _) F n E) as [H|H]; [congruence|contradiction].
Qed.
Lemma cls_ev w dp L e s x st : lower L -> cls_text s x -> ev (rt w dp) L e x st = ev (rt w dp) [] (fun _ => None) x st.
Proof.
  intros F. induction 1 as [n N U B|s x n H IH N].
  - cbn [ev]. unfold var. rewrite (lower_not L n F U B). reflexivity.
  - cbn [ev]. rewrite IH. reflexivity.
Qed.
Lemma item_ev w dp L e s x st : lower L -> item_text s x -> ev (rt w dp) L e x st = ev (rt w dp) [] (fun _ => None) x st.
Proof.
  intros F H. revert st. induction H as [s x H|s x H|s x t y H Hy IH]; intros st.
  - eapply cls_ev; eassumption.
  - cbn [ev]. rewrite (cls_ev w dp L e s x st F H). reflexivity.
  - cbn [ev]. rewrite (cls_ev w dp L e s x st F H). destruct (ev (rt w dp) [] (fun _ => None) x st) as [[g s1]|]; [|reflexivity]. cbn [bind]. rewrite IH. reflexivity.
Qed.

(** names made of a prefix *)
Lemma keyword_underscore n : In 95 n -> keyword n = false.
Proof.
  intros I. destruct (keyword n) eqn:K; [|reflexivity]. apply existsb_in in K. exfalso. vm_compute in K.
  repeat (destruct K as [<-|K]; [vm_compute in I; repeat (destruct I as [I|I]; [discriminate I|]); destruct I|]). destruct K.
Qed.
Lemma ident_prefix p n : ident p = true -> forallb ident_char n = true -> ident (p ++ n) = true.
Proof.
  destruct p as [|c p]; [discriminate|]. cbn [ident app]. intros H N. apply andb_prop in H. destruct H as (H1 & H2). rewrite H1. cbn [andb].
  change (forallb ident_char ((c :: p) ++ n) = true). rewrite forallb_app, H2, N. reflexivity.
Qed.
Lemma ident_chars n : ident n = true -> forallb ident_char n = true.
Proof. destruct n; [discriminate|]. cbn [ident]. intros H. apply andb_prop in H. apply H. Qed.
Lemma name_under p n : ident p = true -> In 95 p -> ident n = true -> name (p ++ n).
Proof.
  intros P I N. split; [apply ident_prefix; [exact P|now apply ident_chars]|]. apply keyword_underscore. apply in_or_app. now left.
Qed.

(** ** Statements *)
Notation self := (xVar (lit "self")).
Notation V s := (xVar (lit s)).
Definition meth (o : pexp) (m : string) (args : list pexp) : pexp := xApp (xDot o (lit m)) args [].
Definition ensure_ast (disc : option Z) : list pstmt :=
  match disc with Some d => [qExpr (meth self "_ensure_union" [num d])] | None => [] end.
Definition fmt_byte (t : ftype) : byte :=
  match t with
  | TPrim Fb => "b" | TPrim FB => "B" | TPrim Fh => "h" | TPrim FH => "H" | TPrim Fi => "i" | TPrim FI => "I"
  | TPrim Fq => "q" | TPrim FQ => "Q" | TFloat32 => "f" | TFloat64 => "d" | _ => "?"
  end%byte.
Definition set (v : string) (e : pexp) : pstmt := qSet (tOne (lit v)) e.
(** value ^= default, if it is not zero *)
Definition xor_ast (d : pexp) : pstmt := qIf (xCmp CNe d (xNum 0)) [set "value" (xBin BXor (V "value") d)] [].
Definition body_ast (fl : Z -> str) (cls enum item : pexp) (nm : str) (t : ftype) (off d : Z) : list pstmt :=
  let offset := num (off * ty_size t) in
  let dflt := slot_ast fl t d in
  match t with
  | TVoid => [qReturn (xConst CNone)]
  | TPrim _ | TFloat32 | TFloat64 =>
      [set "value" (meth self "_read_primitive" [offset; xApp (V "ord") [xByt [fmt_byte t]] []]); xor_ast dflt; qReturn (V "value")]
  | TBool =>
      [set "value" (meth self "_read_bit" [num (off / 8); num (Z.shiftl 1 (off mod 8))]); xor_ast dflt; qReturn (V "value")]
  | TEnum =>
      [set "value" (meth self "_read_int16" [offset]); xor_ast dflt; qReturn (meth enum "_new" [V "value"])]
  | TText => [qReturn (meth self "_read_text_bytes" [offset])]
  | TData => [qReturn (meth self "_read_data" [offset])]
  | TStruct =>
      [set "offset" offset;
       set "p" (meth self "_read_fast_ptr" [V "offset"]);
       qIf (xCmp CEq (meth (V "_ptr") "kind" [V "p"]) (xDot (V "_ptr") (lit "FAR")))
         [qSet (tMany [lit "offset"; lit "p"]) (meth self "_read_far_ptr" [V "offset"])]
         [qAug (lit "offset") BAdd (xDot self (lit "_ptrs_offset"))];
       qIf (xCmp CEq (V "p") (xNum 0)) [qReturn (xConst CNone)] [];
       set "obj" (meth cls "__new__" [cls]);
       qExpr (meth (V "obj") "_init_from_pointer" [xDot self (lit "_seg"); V "offset"; V "p"]);
       qReturn (V "obj")]
  | TList _ => [qReturn (meth self "_read_list" [offset; item])]
  | TAny =>
      [qIf (xNot (xApp (xDot self (lit "has_" ++ nm)) [] [])) [qReturn (xConst CNone)] [];
       qReturn (xApp (V "_AnyPointer") [self; offset] [])]
  end.

Lemma name_lit s : ident (lit s) = true -> keyword (lit s) = false -> name (lit s). Proof. split; assumption. Qed.
Ltac nm := first [apply name_lit; reflexivity|assumption].
Ltac wf1 :=
  match goal with
  | |- wfx (meth _ _ _) => unfold meth
  | |- wfx (xVar _) => cbn [wfx]
  | |- wfx (snd _) => cbn [snd]
  | |- name (fst _) => cbn [fst]
  | |- wfx (num _) => apply wf_num
  | |- wfx ?e => progress cbn [wfx]
  | |- name _ => nm
  | |- _ /\ _ => split
  | |- True => exact Logic.I
  | |- dotable _ = true => first [assumption|reflexivity]
  | |- distinct _ = true => reflexivity
  | |- (_ <= lvl (num _))%nat => apply Nat.le_trans with 3%nat; [lia|apply lvl_num]
  | |- (_ <= lvl _)%nat => first [assumption|cbn; lia]
  | |- _ <= _ => lia
  | |- _ => assumption
  end.
Ltac wf := repeat wf1.
(** the text of an expression, written out *)
Ltac shs := unfold meth; repeat first [rewrite sh_app|rewrite sh_dot|rewrite sh_var|rewrite sh_numz|rewrite sh_bin|rewrite sh_cmp|progress cbn [map app join_with kw_text fst snd]]; rewrite <- ?app_assoc.

Lemma ens_block k disc : block k [ln k (ensure_text disc)] (ensure_ast disc).
Proof.
  destruct disc as [d|]; cbn [ensure_text ensure_ast].
  - replace (lit "self._ensure_union(" ++ dec d ++ lit ")") with (sh (meth self "_ensure_union" [num d])) by (shs; reflexivity).
    apply blk_expr; [wf|reflexivity].
  - apply blk_comment.
Qed.

Lemma set_block k v e s : name (lit v) -> wfx e -> s = lit v ++ lit " = " ++ sh e -> block k [ln k s] [set v e].
Proof. intros N W ->. now apply blk_set. Qed.
Lemma ret_block k e s : wfx e -> s = lit "return " ++ sh e -> block k [ln k s] [qReturn e].
Proof. intros W ->. now apply blk_return. Qed.
Lemma if_block k k' e s body a : wfx e -> s = lit "if " ++ sh e ++ lit ":" -> (k < k')%nat -> a <> [] -> block k' body a -> block k (ln k s :: body) [qIf e a []].
Proof. intros W -> K N B. apply blk_if with (k' := k'); assumption. Qed.

(** (a ^ b) between parentheses *)
Lemma set_par_block k v e : name (lit v) -> wfx e -> block k [ln k (lit v ++ lit " = (" ++ sh e ++ lit ")")] [set v e].
Proof.
  intros N W. pose proof (wfx_shown e W) as H. destruct (h_first e H) as (t & F & L). destruct (h_last e H) as (u & La & T & _).
  set (l := tk (lit v) (KName (lit v)) :: sp :: kop "=" :: sp :: kop "(" :: pcs e ++ [kop ")"]).
  replace (lit v ++ lit " = (" ++ sh e ++ lit ")") with (flat l).
  2:{ unfold l. change (flat (tk (lit v) (KName (lit v)) :: sp :: kop "=" :: sp :: kop "(" :: pcs e ++ [kop ")"])) with (lit v ++ lit " = (" ++ flat (pcs e ++ [kop ")"])).
      rewrite flat_app. reflexivity. }
  apply blk_line with (t := KName (lit v)); [| reflexivity | |].
  - unfold l. change (good ([tk (lit v) (KName (lit v))] ++ sp :: kop "=" :: sp :: [kop "("] ++ pcs e ++ [kop ")"])).
    apply good_app; [now apply name_good| |apply joint_sp]. apply good_sp, good_op; [reflexivity|].
    apply good_app; [apply kop_good; reflexivity| |].
    + apply good_app; [apply H|apply kop_good; reflexivity|]. unfold joint. rewrite La. apply tail_next; [exact T|cbn; tauto].
    + unfold joint. rewrite (firstp_app _ _ _ F). apply lead_after; [cbn; tauto|exact L].
  - unfold l. cbn [toks_of kop opened]. rewrite toks_app, opened_app, (h_open e H). reflexivity.
  - unfold l. cbn [toks_of kop]. rewrite toks_app. apply parses_set. apply prints_down with (m := 4%nat); [|lia|lia]. apply g_par. apply shown_prints; [exact H|lia].
Qed.
Lemma xor_block k d b par : (d <> [] -> True) -> forall e, sh e = d -> wfx e -> (3 <= lvl e)%nat ->
  b = (if par : bool then lit "value = (value ^ " ++ d ++ lit ")" else lit "value = value ^ " ++ d) ->
  block k [ln k (lit "if " ++ d ++ lit " != 0:"); ln (k + 4) b] [xor_ast e].
Proof.
  intros _ e E W L ->. apply if_block with (k' := (k + 4)%nat); [wf; lia| |lia|discriminate|].
  - shs. rewrite E. rewrite sh_num. rewrite <- ?app_assoc. reflexivity.
  - destruct par.
    + replace (lit "value = (value ^ " ++ d ++ lit ")") with (lit "value" ++ lit " = (" ++ sh (xBin BXor (V "value") e) ++ lit ")")
        by (shs; rewrite E, <- ?app_assoc; reflexivity).
      apply set_par_block; [nm|wf; lia].
    + apply set_block; [nm|wf; lia|]. shs. rewrite E. reflexivity.
Qed.

Ltac sts := cbn [map]; rewrite ?Nat.add_0_r.
Lemma lns_cons k j s l : lns k ((j, s) :: l) = ln (k + j) s :: lns k l. Proof. reflexivity. Qed.
Lemma lns_nil k : lns k [] = []. Proof. reflexivity. Qed.


Lemma value_block k v par e d r re l1 l3 l4 : wfx e -> l1 = lit "value" ++ lit " = " ++ sh e ->
  sh d = v -> wfx d -> (3 <= lvl d)%nat -> l3 = (if par : bool then lit "value = (value ^ " ++ v ++ lit ")" else lit "value = value ^ " ++ v) ->
  wfx re -> l4 = lit "return " ++ sh re -> r = qReturn re ->
  block k (lns k [(0%nat, l1); (0%nat, lit "if " ++ v ++ lit " != 0:"); (4%nat, l3); (0%nat, l4)]) [set "value" e; xor_ast d; r].
Proof.
  intros We E1 Ed Wd Ld E3 Wr E4 ->. rewrite !lns_cons, lns_nil, !Nat.add_0_r.
  apply (blk_app k [_] _ [set "value" e] [xor_ast d; qReturn re]); [apply set_block; [nm|exact We|exact E1]|].
  apply (blk_app k [_; _] [_] [xor_ast d] [_]); [apply xor_block with (par := par); auto|].
  now apply ret_block.
Qed.
Lemma struct_block k cls s offset : item_text s cls ->
  block k (lns k
    [(0%nat, lit "offset = " ++ dec offset);
     (0%nat, lit "p = self._read_fast_ptr(offset)");
     (0%nat, lit "if _ptr.kind(p) == _ptr.FAR:");
     (4%nat, lit "offset, p = self._read_far_ptr(offset)");
     (0%nat, lit "else:");
     (4%nat, lit "offset += self._ptrs_offset");
     (0%nat, lit "if p == 0:");
     (4%nat, lit "return None");
     (0%nat, lit "obj = " ++ s ++ lit ".__new__(" ++ s ++ lit ")");
     (0%nat, lit "obj._init_from_pointer(self._seg, offset, p)");
     (0%nat, lit "return obj")])
    [set "offset" (num offset);
     set "p" (meth self "_read_fast_ptr" [V "offset"]);
     qIf (xCmp CEq (meth (V "_ptr") "kind" [V "p"]) (xDot (V "_ptr") (lit "FAR")))
       [qSet (tMany [lit "offset"; lit "p"]) (meth self "_read_far_ptr" [V "offset"])]
       [qAug (lit "offset") BAdd (xDot self (lit "_ptrs_offset"))];
     qIf (xCmp CEq (V "p") (xNum 0)) [qReturn (xConst CNone)] [];
     set "obj" (meth cls "__new__" [cls]);
     qExpr (meth (V "obj") "_init_from_pointer" [xDot self (lit "_seg"); V "offset"; V "p"]);
     qReturn (V "obj")].
Proof.
  intros Hc. destruct (item_sh s cls Hc) as (Es & Ws & Ds). rewrite !lns_cons, lns_nil, !Nat.add_0_r.
  apply (blk_app k [_] _ [_] (_ :: _)); [apply set_block; [nm|wf|now rewrite sh_numz]|].
  apply (blk_app k [_] _ [_] (_ :: _)); [apply set_block; [nm|wf|shs; reflexivity]|].
  apply (blk_app k [_; _; _; _] _ [_] (_ :: _)).
  { assert (E : lit "if _ptr.kind(p) == _ptr.FAR:" = lit "if " ++ sh (xCmp CEq (meth (V "_ptr") "kind" [V "p"]) (xDot (V "_ptr") (lit "FAR"))) ++ lit ":").
    { shs. reflexivity. }
    rewrite E. apply (blk_if_else k (k + 4) (k + 4) _ [_] _ [_] _); try lia; try discriminate; [wf| |].
    - eapply blk_simple with (n := 20%nat); [vm_compute; reflexivity|reflexivity|reflexivity|vm_compute; tauto|vm_compute; reflexivity|discriminate].
    - exact (blk_aug (k + 4) (lit "offset") BAdd (xDot self (lit "_ptrs_offset")) ltac:(nm) ltac:(wf)). }
  apply (blk_app k [_; _] _ [_] (_ :: _)).
  { apply if_block with (k' := (k + 4)%nat); try lia; try discriminate; [wf|shs; reflexivity|].
    apply ret_block; [wf|reflexivity]. }
  apply (blk_app k [_] _ [_] (_ :: _)); [apply set_block; [nm|wf|]|].
  { shs. rewrite Es, <- ?app_assoc. reflexivity. }
  apply (blk_app k [_] _ [_] (_ :: _)).
  - replace (lit "obj._init_from_pointer(self._seg, offset, p)") with (sh (meth (V "obj") "_init_from_pointer" [xDot self (lit "_seg"); V "offset"; V "p"])) by (shs; reflexivity).
    apply blk_expr; [wf|reflexivity].
  - apply ret_block; [wf|reflexivity].
Qed.

Lemma body_block k w fl nm nms disc t off d cls enum item :
  slot_float w fl t d -> ident nm = true ->
  (t = TStruct -> item_text (n_cls nms) cls) -> (t = TEnum -> item_text (n_enum nms) enum) -> (match t with TList _ => item_text (n_item nms) item | _ => True end) ->
  block k (lns k (slot_body fl nms nm disc t off d)) (ensure_ast disc ++ body_ast fl cls enum item nm t off d).
Proof.
  intros F Nm Hc He Hi. unfold slot_body. rewrite lns_cons, Nat.add_0_r. apply blk_cons; [apply ens_block|].
  destruct (slot_ast_ok w fl t d F) as (Ed & Wd & Ld & _).
  destruct t as [|f| | | | | | | |it|].
  - cbn [body_ast]. rewrite lns_cons, lns_nil, Nat.add_0_r. apply ret_block; [wf|reflexivity].
  - cbn [body_ast]. apply value_block with (par := false) (re := V "value"); auto; try reflexivity; [wf| |wf]. shs. destruct f; reflexivity.
  - cbn [body_ast]. apply value_block with (par := false) (re := V "value"); auto; try reflexivity; [wf| |wf]. shs. reflexivity.
  - cbn [body_ast]. apply value_block with (par := false) (re := V "value"); auto; try reflexivity; [wf| |wf]. shs. reflexivity.
  - cbn [body_ast]. apply value_block with (par := false) (re := V "value"); auto; try reflexivity; [wf| |wf]. shs. reflexivity.
  - cbn [body_ast]. destruct (item_sh _ _ (He eq_refl)) as (Es & Ws & Ds).
    apply value_block with (par := true) (re := meth enum "_new" [V "value"]); auto; try reflexivity; [wf| |wf|]; shs; [reflexivity|].
    rewrite Es, <- ?app_assoc. reflexivity.
  - cbn [body_ast]. rewrite lns_cons, lns_nil, Nat.add_0_r. apply ret_block; [wf|shs; reflexivity].
  - cbn [body_ast]. rewrite lns_cons, lns_nil, Nat.add_0_r. apply ret_block; [wf|shs; reflexivity].
  - apply struct_block. now apply Hc.
  - cbn [body_ast]. destruct (item_sh _ _ Hi) as (Es & Ws & Ds). rewrite lns_cons, lns_nil, Nat.add_0_r. apply ret_block; [wf|]. shs. rewrite Es, <- ?app_assoc. reflexivity.
  - cbn [body_ast]. rewrite !lns_cons, lns_nil, !Nat.add_0_r.
    assert (Nh : name (lit "has_" ++ nm)) by (apply name_under; [reflexivity|vm_compute; tauto|exact Nm]).
    apply (blk_app k [_; _] _ [_] [_]).
    + apply if_block with (k' := (k + 4)%nat); try lia; try discriminate; [wf| |].
      * change (sh (xNot (xApp (xDot self (lit "has_" ++ nm)) [] []))) with (lit "not " ++ sh (xApp (xDot self (lit "has_" ++ nm)) [] [])). shs. reflexivity.
      * apply ret_block; [wf|reflexivity].
    + apply ret_block; [wf|shs; reflexivity].
Qed.

(** a property, a method without arguments *)
Lemma property_block k n body b : name n -> b <> [] -> block (k + 4) (lns (k + 4) body) b ->
  block k (def_property k n body) [qDef (Some (lit "property")) n [(lit "self", None)] b].
Proof.
  intros N Nb B. unfold def_property.
  change (ln k (lit "@property") :: ln k (lit "def " ++ n ++ lit "(self):") :: lns (k + 4) body ++ [blank_line k])
    with ((deco_text k (Some (lit "property")) ++ def_line k n [(lit "self", None)] :: lns (k + 4) body) ++ [blank_line k]).
  rewrite <- (app_nil_r [qDef _ _ _ _]). apply blk_app; [|apply blk_blank].
  apply blk_def with (k' := (k + 4)%nat); [nm|exact N| |exact Logic.I|reflexivity|lia|exact Nb|exact B].
  apply Forall_cons; [|apply Forall_nil]. split; [nm|exact Logic.I].
Qed.
Lemma method_block k n body b : name n -> b <> [] -> block (k + 4) body b ->
  block k (ln k (lit "def " ++ n ++ lit "(self):") :: body ++ [blank_line k]) [qDef None n [(lit "self", None)] b].
Proof.
  intros N Nb B.
  change (ln k (lit "def " ++ n ++ lit "(self):") :: body ++ [blank_line k])
    with ((deco_text k None ++ def_line k n [(lit "self", None)] :: body) ++ [blank_line k]).
  rewrite <- (app_nil_r [qDef _ _ _ _]). apply blk_app; [|apply blk_blank].
  apply blk_def with (k' := (k + 4)%nat); [exact Logic.I|exact N| |exact Logic.I|reflexivity|lia|exact Nb|exact B].
  apply Forall_cons; [|apply Forall_nil]. split; [nm|exact Logic.I].
Qed.
