(** The texts of groups, nullable groups and get_foo, and what they do. *)
From Coq Require Import Strings.String.
From Verif Require FloatBits FloatSpec FloatFacts Names.
From Verif Require Import Base BaseFacts Spec Ptr Segment Builder Copy Struct List CopyList Case CaseFacts Loader Repr PyExpr
  Ctor PySyntax PySyntaxFacts PyPrint PyRun GenRun GenText TextSpec GenTextFacts GenTextRun GenGet.
From Coq Require Import Lists.List.
Local Notation length := Datatypes.length.
Local Open Scope string_scope.
Local Open Scope list_scope.
Local Open Scope Z_scope.

(** ** Groups *)
Lemma blk_cont k j l1 l2 t ts1 ts2 q n : lex l1 = Some (t :: ts1) -> lex l2 = Some ts2 -> (opened (t :: ts1) =? 0) = false -> (0 <? opened (t :: ts1)) = true ->
  (opened ((t :: ts1) ++ ts2) =? 0) = true -> simple_head ((t :: ts1) ++ ts2) -> p_simple n ((t :: ts1) ++ ts2) = Some q ->
  match l1 with c :: _ => c <> 32 | [] => False end ->
  block k [at_col k l1; at_col j l2] [q].
Proof.
  intros L1 L2 O1 O2 O3 Sh P C. exists [(k, (t :: ts1) ++ ts2)]. split; [|split; [eapply parses_simple; eassumption|split; [reflexivity|discriminate]]].
  destruct l1 as [|c l1]; [destruct C|]. cbn [logical]. unfold at_col. rewrite !lex_spaces, L1, L2, indent_spaces by exact C. rewrite O1, O2, O3. reflexivity.
Qed.
Definition group_ast (g : pexp) : list pstmt :=
  [set "obj" (meth g "__new__" [g]);
   qExpr (meth (V "_Struct") "_init_from_buffer" [V "obj"; xDot self (lit "_seg"); xDot self (lit "_data_offset"); xDot self (lit "_data_size"); xDot self (lit "_ptrs_size")]);
   qReturn (V "obj")].
Lemma group_block k nms disc g : cls_text (n_group nms) g -> block k (lns k (group_body nms disc)) (ensure_ast disc ++ group_ast g).
Proof.
  intros Hg. destruct (cls_sh _ _ Hg) as (Es & Ws & Ds). unfold group_body. rewrite !lns_cons, lns_nil, !Nat.add_0_r. apply blk_cons; [apply ens_block|].
  unfold group_ast. apply (blk_app k [_] _ [_] (_ :: _)).
  { apply set_block; [nm|wf|]. shs. rewrite Es, <- ?app_assoc. reflexivity. }
  apply (blk_app k [_; _] [_] [_] [_]).
  - eapply blk_cont with (n := 40%nat); [vm_compute; reflexivity|vm_compute; reflexivity|vm_compute; reflexivity|vm_compute; reflexivity|vm_compute; reflexivity|vm_compute; tauto|vm_compute; reflexivity|discriminate].
  - apply ret_block; [wf|reflexivity].
Qed.
Section groups.
  Context (w : world) (dp : nat) (c : str) (o : obj).
  Hypothesis K : keeps w c.
  Notation e0 := (set_var (fun _ : str => None) (lit "self") (XObj c o)).
  Notation R := (rt w dp).
  Lemma run_group nms g cg disc f s : cls_text (n_group nms) g -> keeps w cg -> (forall dp st, ev (rt w dp) [] (fun _ => None) g st = Ok (XCls cg, st)) -> f_disc f = disc ->
    call_def R [(lit "self", None)] (ensure_ast disc ++ group_ast g) [XObj c o] [] s =
    (do x <- get_group o (w_utag w c) f; Ok (XNew cg, mkst (s_buf s) (Some x))).
  Proof.
    intros Hg Kg Eg D. rewrite (call_body w dp c o K disc _ s f D). unfold get_group. destruct (ensure_union o (w_utag w c) f); [|reflexivity]. cbn [bind].
    unfold group_ast at 2. unfold set. rewrite rb_set. unfold meth at 1. set (L := locals (group_ast g)).
    assert (LL : lower L) by (unfold L, locals; cbn; repeat (apply Forall_cons; [left; reflexivity|]); apply Forall_nil).
    assert (EC : ev R L e0 g s = Ok (XCls cg, s)) by (rewrite (cls_ev w dp L e0 _ g s LL Hg); apply Eg).
    rewrite (ev_call w dp L e0 _ (XMeth (XCls cg) (lit "__new__")) _ s s [XCls cg] s); [|rewrite ev_dot, EC; cbn [bind]; apply rt_cls_attr; [exact Kg|cbn; tauto]|eapply ev_all_cons; [exact EC|reflexivity]].
    rewrite rt_new by exact Kg. cbn [bind]. set (e' := set_var e0 (lit "obj") (XNew cg)).
    rewrite rb_expr. unfold meth.
    assert (A : forall n x, In n ["_seg"; "_data_offset"; "_ptrs_offset"; "_data_size"; "_ptrs_size"] -> struct_attr o (lit n) = Some x ->
      ev R L e' (xDot self (lit n)) s = Ok (x, s)).
    { intros n x I E. rewrite ev_dot, (ev_local w dp L e' (lit "self") (XObj c o) s ltac:(split; reflexivity)). cbn [bind]. now apply rt_attr_data. }
    rewrite (ev_call w dp L e' _ (XMeth (XFun (lit "_Struct")) (lit "_init_from_buffer")) _ s s
      [XNew cg; XSeg (o_seg o); XV (PInt (o_off o)); XV (PInt (o_ds o)); XV (PInt (o_ps o))] s).
    - rewrite rt_call_fun_meth.
      change (call_fun_meth (lit "_Struct") (lit "_init_from_buffer") [XNew cg; XSeg (o_seg o); XV (PInt (o_off o)); XV (PInt (o_ds o)); XV (PInt (o_ps o))] s) with
        (do x <- init_from_buffer (o_seg o) (o_off o) (o_ds o) (o_ps o); Ok (XV PNone, mkst (s_buf s) (Some x))).
      destruct (init_from_buffer (o_seg o) (o_off o) (o_ds o) (o_ps o)) as [x|]; [|reflexivity]. cbn [bind]. rewrite rb_return.
      erewrite ev_local by (split; reflexivity). reflexivity.
    - rewrite ev_dot. rewrite (ev_fun w dp L e' "_Struct" s) by (first [cbn; tauto|reflexivity]). cbn [bind]. rewrite rt_fun_attr. reflexivity.
    - eapply ev_all_cons; [apply (ev_local w dp L e' (lit "obj")); split; reflexivity|].
      eapply ev_all_cons; [apply (A "_seg"); [cbn; tauto|reflexivity]|].
      eapply ev_all_cons; [apply (A "_data_offset"); [cbn; tauto|reflexivity]|].
      eapply ev_all_cons; [apply (A "_data_size"); [cbn; tauto|reflexivity]|].
      eapply ev_all_cons; [apply (A "_ptrs_size"); [cbn; tauto|reflexivity]|reflexivity].
  Qed.
End groups.

(** ** Nullable groups *)
Definition nullable_ast (nm : str) : list pstmt :=
  [set "g" (xDot self (lit "_" ++ nm)); qIf (xDot (V "g") (lit "is_null")) [qReturn (xConst CNone)] []; qReturn (xDot (V "g") (lit "value"))].
Lemma nullable_block k nm : ident nm = true -> block k (lns k (nullable_body nm)) (nullable_ast nm).
Proof.
  intros N. unfold nullable_body. rewrite !lns_cons, lns_nil, !Nat.add_0_r.
  assert (Nh : name (lit "_" ++ nm)) by (apply name_under; [reflexivity|vm_compute; tauto|exact N]).
  unfold nullable_ast. apply (blk_app k [_] _ [_] (_ :: _)).
  { apply set_block; [nm|wf|]. shs. reflexivity. }
  apply (blk_app k [_; _] [_] [_] [_]).
  - apply if_block with (k' := (k + 4)%nat); try lia; try discriminate; [wf|shs; reflexivity|]. apply ret_block; [wf|reflexivity].
  - apply ret_block; [wf|shs; reflexivity].
Qed.
Lemma rt_new_property w d c o n s ps b : s_new s = Some o -> among n ["_init_from_buffer"; "_init_from_pointer"] = false ->
  last_def (w_body w c) n = Some (Some (lit "property"), ps, b) -> r_attr (rt w (S d)) (XNew c) n s = call_def (rt w d) ps b [XObj c o] [] s.
Proof. intros N A E. cbn [rt r_attr]. rewrite A, N, E. reflexivity. Qed.
Lemma o_read_range o off f v : o_read_primitive o off f = Ok v -> in_fmt f v.
Proof.
  unfold o_read_primitive. destruct (_ <=? _); [intros [= <-]; destruct f; split; vm_compute; congruence|]. unfold read_primitive. destruct ((_ <? 0) || (_ <? _)) eqn:B; [discriminate|].
  apply orb_false_elim in B. destruct B as (B1 & B2). apply Z.ltb_ge in B1, B2. rewrite unpack_from_in by lia. intros [= <-]. apply fdec_range. pose proof (fsize_pos f). rewrite blen_sub; lia.
Qed.
Lemma shown_truth o t off d v x c' s : read_slot x t off d = Ok v -> x_truth (fst (shows o c' v s)) = Ok (truthy v).
Proof.
  destruct t; cbn [read_slot].
  - intros [= <-]. reflexivity.
  - destruct (o_read_primitive x _ f); [|discriminate]. intros [= <-]. reflexivity.
  - destruct (o_read_primitive x _ FI) as [b|] eqn:E; [|discriminate]. cbn [bind]. destruct (negb _); [discriminate|]. intros [= <-]. cbn [shows fst x_truth truthy].
    apply o_read_range in E. rewrite zero_to64 by (unfold in_fmt in E; change (fmin FI) with 0 in E; change (fmax FI) with (2 ^ 32 - 1) in E; lia). reflexivity.
  - destruct (o_read_primitive x _ FQ) as [b|] eqn:E; [|discriminate]. cbn [bind]. destruct (negb _); [discriminate|]. intros [= <-]. reflexivity.
  - destruct (o_read_bit x _ _); [|discriminate]. intros [= <-]. reflexivity.
  - destruct (o_read_primitive x _ Fh); [|discriminate]. intros [= <-]. reflexivity.
  - destruct (o_read_data x _ None (-1)) as [[b|]|]; [| |discriminate]; intros [= <-]; reflexivity.
  - destruct (o_read_data x _ None 0) as [[b|]|]; [| |discriminate]; intros [= <-]; reflexivity.
  - destruct (o_read_struct x _) as [[b|]|]; [| |discriminate]; intros [= <-]; reflexivity.
  - destruct (o_read_list x _ t) as [[b|]|]; [| |discriminate]; intros [= <-]; reflexivity.
  - destruct (has_slot x off) as [[|]|]; [| |discriminate]; intros [= <-]; reflexivity.
Qed.

Section nullable.
  Context (w : world) (dp : nat) (fl : Z -> str) (c : str) (o : obj).
  (** the property of a slot in a class *)
  Definition has_getter (c : str) (f : field) (c' : str) : Prop :=
    match f with
    | FSlot n _ disc t off _ d =>
        exists nms cls enum item, slot_ok w fl c nms (lit n) t off d cls enum item c' /\
        last_def (w_body w c) (lit n) = Some (Some (lit "property"), [(lit "self", None)], ensure_ast disc ++ body_ast fl cls enum item (lit n) t off d)
    | FGroup _ _ _ _ _ _ => False
    end.
  Lemma attr_getter d c1 o1 f c' s : keeps w c1 -> has_getter c1 f c' ->
    r_attr (rt w (S (S d))) (XObj c1 o1) (lit (f_name f)) s = (do v <- get_slot o1 (w_utag w c1) f; Ok (shows o1 c' v s)).
  Proof.
    intros K H. destruct f as [n ord disc t off ex dv|]; [|destruct H]. destruct H as (nms & cls & enum & item & SO & E). cbn [f_name].
    rewrite (rt_attr_property w (S d) c1 o1 (lit n) s _ _ E). eapply run_getter; eassumption.
  Qed.
  Lemma attr_getter_new d c1 o1 f c' s : keeps w c1 -> has_getter c1 f c' -> s_new s = Some o1 -> among (lit (f_name f)) ["_init_from_buffer"; "_init_from_pointer"] = false ->
    r_attr (rt w (S (S d))) (XNew c1) (lit (f_name f)) s = (do v <- get_slot o1 (w_utag w c1) f; Ok (shows o1 c' v s)).
  Proof.
    intros K H N A. destruct f as [n ord disc t off ex dv|]; [|destruct H]. destruct H as (nms & cls & enum & item & SO & E). cbn [f_name] in *.
    rewrite (rt_new_property w (S d) c1 o1 (lit n) s _ _ N A E). eapply run_getter; eassumption.
  Qed.
  Hypothesis K : keeps w c.
  Lemma shows_fst o1 o2 c1 t off d v x s : ty_pointer t = false -> read_slot x t off d = Ok v -> seen o2 c1 v (fst (shows o1 c1 v s)) (snd (shows o1 c1 v s)).
  Proof.
    intros P. destruct t; try discriminate P; cbn [read_slot].
    - intros [= <-]. reflexivity.
    - destruct (o_read_primitive x _ f); [|discriminate]. intros [= <-]. reflexivity.
    - destruct (o_read_primitive x _ FI) as [b|] eqn:E; [|discriminate]. cbn [bind]. destruct (negb _); [discriminate|]. intros [= <-]. reflexivity.
    - destruct (o_read_primitive x _ FQ) as [b|] eqn:E; [|discriminate]. cbn [bind]. destruct (negb _); [discriminate|]. intros [= <-]. reflexivity.
    - destruct (o_read_bit x _ _); [|discriminate]. intros [= <-]. reflexivity.
    - destruct (o_read_primitive x _ Fh); [|discriminate]. intros [= <-]. reflexivity.
  Qed.
  Lemma slot_read o1 u n ord disc t off ex d v : get_slot o1 u (FSlot n ord disc t off ex d) = Ok v -> read_slot o1 t off d = Ok v.
  Proof. cbn [get_slot]. destruct (ensure_union o1 u (FSlot n ord disc t off ex d)); [exact (fun H => H)|discriminate]. Qed.
  Definition slot_type (f : field) : ftype := match f with FSlot _ _ _ t _ _ _ => t | _ => TAny end.
  Lemma run_nullable nms g cg n ord disc utag fs fi fv ci cv s :
    let f := FGroup n ord disc true utag fs in
    cls_text (n_group nms) g -> keeps w cg -> (forall dp st, ev (rt w dp) [] (fun _ => None) g st = Ok (XCls cg, st)) -> w_utag w cg = utag ->
    last_def (w_body w c) (lit "_" ++ lit n) = Some (Some (lit "property"), [(lit "self", None)], ensure_ast disc ++ group_ast g) ->
    find (fun x => String.eqb (f_name x) "is_null") fs = Some fi -> find (fun x => String.eqb (f_name x) "value") fs = Some fv ->
    has_getter cg fi ci -> has_getter cg fv cv -> slot_type fi <> TStruct -> ty_pointer (slot_type fv) = false ->
    gives (call_def (rt w (S (S dp))) [(lit "self", None)] (nullable_ast (lit n)) [XObj c o] [] s) o cv (get_nullable o (w_utag w c) f).
  Proof.
    intros f Hg Kg Eg U E Fi Fv Gi Gv NS NP. rewrite call_self. unfold nullable_ast at 2. unfold set. rewrite rb_set.
    set (L := lit "self" :: _). set (e0 := set_var _ (lit "self") _).
    rewrite ev_dot, (ev_local w (S (S dp)) L e0 (lit "self") (XObj c o) s ltac:(split; reflexivity)). cbn [bind].
    rewrite (rt_attr_property w (S dp) c o _ s _ _ E), (run_group w (S dp) c o K nms g cg disc f s Hg Kg Eg eq_refl).
    unfold get_nullable. fold f. cbn [get_nullable f]. destruct (get_group o (w_utag w c) f) as [x|]; [|reflexivity]. cbn [bind].
    rewrite Fi, Fv. set (s1 := mkst (s_buf s) (Some x)). set (e1 := set_var e0 (lit "g") (XNew cg)).
    assert (Ni : f_name fi = "is_null") by (apply find_some in Fi; apply String.eqb_eq; apply Fi).
    assert (Nv : f_name fv = "value") by (apply find_some in Fv; apply String.eqb_eq; apply Fv).
    rewrite rb_if, ev_dot, (ev_local w (S (S dp)) L e1 (lit "g") (XNew cg) s1 ltac:(split; reflexivity)). cbn [bind].
    pose proof (attr_getter_new dp cg x fi ci s1 Kg Gi eq_refl) as Ai. rewrite Ni in Ai. specialize (Ai eq_refl). rewrite Ai, U.
    destruct (get_slot x utag fi) as [v|] eqn:Ev; [|reflexivity]. cbn [bind].
    destruct fi as [n1 o1 d1 t1 off1 e1' v1|]; [|destruct Gi]. apply slot_read in Ev. cbn [slot_type] in NS.
    assert (S1 : exists y, shows x ci v s1 = (y, s1)).
    { destruct v as [| | | | | |x1| |]; try (eexists; reflexivity). exfalso. clear - Ev NS.
      destruct t1; try contradiction (NS eq_refl); cbn [read_slot] in Ev.
      - discriminate.
      - destruct (o_read_primitive x _ f); discriminate.
      - destruct (o_read_primitive x _ FI); [|discriminate]. cbn [bind] in Ev. destruct (negb _); discriminate.
      - destruct (o_read_primitive x _ FQ); [|discriminate]. cbn [bind] in Ev. destruct (negb _); discriminate.
      - destruct (o_read_bit x _ _); discriminate.
      - destruct (o_read_primitive x _ Fh); discriminate.
      - destruct (o_read_data x _ None (-1)) as [[b|]|]; discriminate.
      - destruct (o_read_data x _ None 0) as [[b|]|]; discriminate.
      - destruct (o_read_list x _ t) as [[b|]|]; discriminate.
      - destruct (has_slot x off1) as [[|]|]; discriminate. }
    destruct S1 as (y & S1). pose proof (shown_truth x t1 off1 v1 v x ci s1 Ev) as Tr. rewrite S1 in Tr |- *. cbn [fst] in Tr. rewrite rt_truth, Tr. cbn [bind].
    destruct (truthy v); [rewrite rb_return, ev_const; cbn [bind gives]; eexists _, _; split; reflexivity|].
    change (run_block (rt w (S (S dp))) L [] ?e ?s) with (@Ok (@outcome xv st) (Next e s)). cbn [bind].
    rewrite rb_return, ev_dot, (ev_local w (S (S dp)) L e1 (lit "g") (XNew cg) s1 ltac:(split; reflexivity)). cbn [bind].
    pose proof (attr_getter_new dp cg x fv cv s1 Kg Gv eq_refl) as Av. rewrite Nv in Av. specialize (Av eq_refl). rewrite Av, U.
    destruct (get_slot x utag fv) as [v'|] eqn:Ev'; [|reflexivity]. cbn [bind gives].
    destruct fv as [n2 o2 d2 t2 off2 e2' v2|]; [|destruct Gv]. apply slot_read in Ev'. cbn [slot_type] in NP.
    pose proof (shows_fst x o cv t2 off2 v2 v' x s1 NP Ev') as Sh. destruct (shows x cv v' s1) as [z s2]. cbn [fst snd] in Sh. exists z, s2. split; [reflexivity|exact Sh].
  Qed.
End nullable.

(** ** get_foo *)
Definition text_get_ast (m : string) (offset : Z) : list pstmt := [qReturn (xApp (xDot self (lit m)) [num offset] [(lit "default_", xByt [])])].
Definition res_ast (nm : str) (x : pexp) : list pstmt :=
  [set "res" (xDot self nm); qIf (xCmp CIs (V "res") (xConst CNone)) [qReturn x] []; qReturn (V "res")].
Definition get_ast (t : ftype) (cls item : pexp) (nm : str) (offset : Z) : list pstmt :=
  match t with
  | TText => text_get_ast "_read_text_bytes" offset
  | TData => text_get_ast "_read_data" offset
  | TStruct => res_ast nm (xApp (xDot cls (lit "from_buffer")) [xByt []; xNum 0] [(lit "data_size", xNum 0); (lit "ptrs_size", xNum 0)])
  | TList _ => res_ast nm (meth (V "_List") "from_buffer" [xByt []; xNum 0; xNum 0; xNum 0; item])
  | _ => []
  end.
Lemma okb_swap a p p' t b : okb (a ++ tk p t :: b) = okb (a ++ tk p' t :: b).
Proof.
  induction a as [|x a IH]; [reflexivity|]. destruct x as [|q u]; [exact IH|]. cbn [app okb]. rewrite IH. f_equal. destruct a as [|[|]]; reflexivity.
Qed.
Lemma toks_swap a p p' t b : toks_of (a ++ tk p t :: b) = toks_of (a ++ tk p' t :: b).
Proof. rewrite !toks_app. reflexivity. Qed.
Lemma good_swap a p p' t b : good (a ++ tk p t :: b) -> spells p' t -> good (a ++ tk p' t :: b).
Proof.
  intros (A & B) S. split; [|rewrite <- (okb_swap a p p'); exact B]. apply Forall_app in A. destruct A as (A1 & A2). apply Forall_app. split; [exact A1|].
  inversion A2; subst. apply Forall_cons; [exact S|assumption].
Qed.
(** b"" in the place of b'' *)
Lemma text_get_block k m offset : name (lit m) ->
  block k [ln k (lit "return self." ++ lit m ++ lit "(" ++ dec offset ++ lit ", default_=b"""")")] (text_get_ast m offset).
Proof.
  intros N. set (e := xApp (xDot self (lit m)) [num offset] [(lit "default_", xByt [])]).
  assert (W : wfx e) by (unfold e; wf; cbn [map]; wf). pose proof (wfx_shown e W) as H.
  set (A := tk (lit "return") (word "return") :: sp :: tk (lit "self") (KName (lit "self")) :: kop "." :: tk (lit m) (KName (lit m)) :: kop "(" ::
            pcs (num offset) ++ [kop ","; sp; tk (lit "default_") (KName (lit "default_")); kop "="]).
  assert (E : word_pieces "return" (pcs e) = A ++ tk (98 :: bytes_repr []) (KBytes []) :: [kop ")"]).
  { unfold e, A, word_pieces. cbn [pcs map app commas fst snd]. rewrite <- !app_assoc. reflexivity. }
  replace (lit "return self." ++ lit m ++ lit "(" ++ dec offset ++ lit ", default_=b"""")") with (flat (A ++ tk [98; 34; 34] (KBytes []) :: [kop ")"])).
  2:{ unfold A. change (flat ((tk (lit "return") (word "return") :: sp :: tk (lit "self") (KName (lit "self")) :: kop "." :: tk (lit m) (KName (lit m)) :: kop "(" ::
            pcs (num offset) ++ [kop ","; sp; tk (lit "default_") (KName (lit "default_")); kop "="]) ++ tk [98; 34; 34] (KBytes []) :: [kop ")"])) with
        (lit "return self." ++ lit m ++ lit "(" ++ flat ((pcs (num offset) ++ [kop ","; sp; tk (lit "default_") (KName (lit "default_")); kop "="]) ++ tk [98; 34; 34] (KBytes []) :: [kop ")"])).
      rewrite !flat_app. change (flat (pcs (num offset))) with (sh (num offset)). rewrite sh_numz, <- app_assoc. reflexivity. }
  apply blk_line with (t := word "return").
  - apply good_swap with (p := 98 :: bytes_repr []); [|apply sp_bytes2]. rewrite <- E. apply word_good; try reflexivity. apply H.
  - reflexivity.
  - rewrite <- (toks_swap A (98 :: bytes_repr [])), <- E. cbn. apply H.
  - rewrite <- (toks_swap A (98 :: bytes_repr [])), <- E. cbn [toks_of word_pieces]. apply parses_return. apply shown_prints; [exact H|lia].
Qed.
Lemma res_block k nm x s : name nm -> wfx x -> s = lit "return " ++ sh x ->
  block k [ln k (lit "res = self." ++ nm); ln k (lit "if res is None:"); ln (k + 4) s; ln k (lit "return res")] (res_ast nm x).
Proof.
  intros N W Es. unfold res_ast. apply (blk_app k [_] _ [_] (_ :: _)); [apply set_block; [nm|wf|shs; reflexivity]|].
  apply (blk_app k [_; _] [_] [_] [_]).
  - apply if_block with (k' := (k + 4)%nat); try lia; try discriminate; [wf|shs; reflexivity|]. apply ret_block; [exact W|exact Es].
  - apply ret_block; [wf|reflexivity].
Qed.
Definition get_able (t : ftype) : bool := match t with TText | TData | TStruct | TList _ => true | _ => false end.
Lemma get_block k nms nm t offset cls item : name nm -> get_able t = true ->
  (t = TStruct -> cls_text (n_cls nms) cls) -> (match t with TList _ => item_text (n_item nms) item | _ => True end) ->
  block k (get_text k nms nm t offset) [qDef None (lit "get_" ++ nm) [(lit "self", None)] (get_ast t cls item nm offset)].
Proof.
  intros N G Hc Hi.
  assert (Nh : name (lit "get_" ++ nm)) by (apply name_under; [reflexivity|vm_compute; tauto|apply N]).
  assert (E : lit "def get_" ++ nm ++ lit "(self):" = lit "def " ++ (lit "get_" ++ nm) ++ lit "(self):") by (rewrite <- !app_assoc; reflexivity).
  destruct t; try discriminate G; cbn [get_text get_ast]; rewrite !lns_cons, lns_nil, Nat.add_0_r, E.
  - apply method_block with (body := [_]); [exact Nh|discriminate|]. apply (text_get_block (k + 4) "_read_text_bytes" offset). nm.
  - apply method_block with (body := [_]); [exact Nh|discriminate|]. apply (text_get_block (k + 4) "_read_data" offset). nm.
  - destruct (cls_sh _ _ (Hc eq_refl)) as (Es & Ws & Ds). replace (k + 8)%nat with (k + 4 + 4)%nat by lia.
    apply method_block with (body := [_; _; _; _]); [exact Nh|discriminate|]. apply res_block; [exact N|wf; cbn [map]; wf|].
    shs. rewrite Es. unfold kw_text. cbn [fst snd]. rewrite ?sh_num, <- ?app_assoc. reflexivity.
  - destruct (item_sh _ _ Hi) as (Es & Ws & Ds). replace (k + 8)%nat with (k + 4 + 4)%nat by lia.
    apply method_block with (body := [_; _; _; _]); [exact Nh|discriminate|]. apply res_block; [exact N|wf; cbn [map]; wf|].
    shs. rewrite Es, !sh_num, <- ?app_assoc. reflexivity.
Qed.

Section get_methods.
  Context (w : world) (dp : nat) (fl : Z -> str) (c : str) (o : obj).
  Hypothesis K : keeps w c.
  Lemma run_text_get d m offset s x : In m struct_methods ->
    call_struct w c o (lit m) [XV (PInt offset)] [(lit "default_", XV (PBytes []))] = x ->
    call_def (rt w d) [(lit "self", None)] (text_get_ast m offset) [XObj c o] [] s = (do v <- x; Ok (v, s)).
  Proof.
    intros I <-. rewrite call_self. set (L := lit "self" :: flat_map assigned (text_get_ast m offset)). set (e0 := set_var _ (lit "self") (XObj c o)).
    unfold text_get_ast. rewrite rb_return.
    replace (ev (rt w d) L e0 (xApp (xDot self (lit m)) [num offset] [(lit "default_", xByt [])]) s) with
      (r_call (rt w d) (XMeth (XObj c o) (lit m)) [XV (PInt offset)] [(lit "default_", XV (PBytes []))] s).
    - rewrite rt_call_method by assumption. destruct (call_struct w c o (lit m) _ _); reflexivity.
    - symmetry. change (ev (rt w d) L e0 (xApp (xDot self (lit m)) [num offset] [(lit "default_", xByt [])]) s) with
        (do (g, s) <- ev (rt w d) L e0 (xDot self (lit m)) s;
         do (vs, s) <- (do (v, s) <- ev (rt w d) L e0 (num offset) s; Ok ([v], s));
         do (ks, s) <- Ok ([(lit "default_", r_bytes (rt w d) [])], s); r_call (rt w d) g vs ks s).
      rewrite ev_dot, (ev_local w d L e0 (lit "self") (XObj c o) s ltac:(split; reflexivity)). cbn [bind]. rewrite (rt_attr_method w d c o m s K I). cbn [bind].
      rewrite ev_num. cbn [bind]. rewrite rt_bytes. reflexivity.
  Qed.
  (** res = self.foo; if res is None: ... *)
  Lemma run_res d nm x s : 
    call_def (rt w d) [(lit "self", None)] (res_ast nm x) [XObj c o] [] s =
    (do (v, s) <- r_attr (rt w d) (XObj c o) nm s;
     match v with
     | XV PNone => ev (rt w d) (lit "self" :: flat_map assigned (res_ast nm x)) (set_var (set_var (fun _ => None) (lit "self") (XObj c o)) (lit "res") (XV PNone)) x s
     | _ => Ok (v, s)
     end).
  Proof.
    rewrite call_self. set (L := lit "self" :: flat_map assigned (res_ast nm x)). set (e0 := set_var _ (lit "self") (XObj c o)).
    unfold res_ast, set. rewrite rb_set, ev_dot, (ev_local w d L e0 (lit "self") (XObj c o) s ltac:(split; reflexivity)). cbn [bind].
    destruct (r_attr (rt w d) (XObj c o) nm s) as [[v s1]|]; [|reflexivity]. cbn [bind]. set (e1 := set_var e0 (lit "res") v).
    assert (HR : local L e1 (lit "res") v) by (split; reflexivity).
    rewrite rb_if, ev_cmp, (ev_local w d L e1 (lit "res") v s1 HR). cbn [bind]. rewrite ev_const. cbn [bind x_cmp x_is]. rewrite rt_truth. cbn [x_truth bind].
    assert (Rest : (match v with XV PNone => false | _ => true end) = true -> finish (run_block (rt w d) L [qReturn (V "res")] e1 s1) = Ok (v, s1)).
    { intros _. rewrite rb_return, (ev_local w d L e1 (lit "res") v s1 HR). reflexivity. }
    assert (Z : forall b : bool, b = false -> finish (do o <- run_block (rt w d) L (if b then [qReturn x] else []) e1 s1;
       match o with Next e s => run_block (rt w d) L [qReturn (V "res")] e s | Return _ _ => Ok o end) = finish (run_block (rt w d) L [qReturn (V "res")] e1 s1)).
    { intros b ->. reflexivity. }
    destruct v as [[]| | | | | | | | |]; try (rewrite (Z false eq_refl); apply Rest; reflexivity).
    rewrite rb_return. fold e1. destruct (ev (rt w d) L e1 x s1) as [[y s2]|]; reflexivity.
  Qed.
  Lemma ev_from_buffer d L e n cls c' s : lower L -> cls_text n cls -> keeps w c' -> (forall dp st, ev (rt w dp) [] (fun _ => None) cls st = Ok (XCls c', st)) ->
    ev (rt w d) L e (xApp (xDot cls (lit "from_buffer")) [xByt []; xNum 0] [(lit "data_size", xNum 0); (lit "ptrs_size", xNum 0)]) s =
    (do x <- init_from_buffer {| sbuf := []; soffs := None |} 0 0 0; Ok (XObj c' x, s)).
  Proof.
    intros LL Hn Kc Ev.
    change (ev (rt w d) L e (xApp (xDot cls (lit "from_buffer")) [xByt []; xNum 0] [(lit "data_size", xNum 0); (lit "ptrs_size", xNum 0)]) s) with
      (do (g, s) <- ev (rt w d) L e (xDot cls (lit "from_buffer")) s;
       r_call (rt w d) g [r_bytes (rt w d) []; r_int (rt w d) 0] [(lit "data_size", r_int (rt w d) 0); (lit "ptrs_size", r_int (rt w d) 0)] s).
    rewrite ev_dot, (cls_ev w d L e n cls s LL Hn), Ev. cbn [bind]. rewrite rt_cls_attr by (first [assumption|cbn; tauto]). cbn [bind].
    rewrite rt_from_buffer by exact Kc. rewrite rt_bytes, !rt_int. reflexivity.
  Qed.
  Lemma run_get_method nms cls enum item c' n ord disc t off ex dv s :
    let f := FSlot n ord disc t off ex dv in
    slot_ok w fl c nms (lit n) t off dv cls enum item c' -> get_able t = true ->
    last_def (w_body w c) (lit n) = Some (Some (lit "property"), [(lit "self", None)], ensure_ast disc ++ body_ast fl cls enum item (lit n) t off dv) ->
    gives (call_def (rt w (S (S dp))) [(lit "self", None)] (get_ast t cls item (lit n) (off * ty_size t)) [XObj c o] [] s) o c' (get_method o (w_utag w c) f).
  Proof.
    intros f SO G E. pose proof SO as [F Fr He Hi Hc Hh].
    assert (A : forall s, r_attr (rt w (S (S dp))) (XObj c o) (lit n) s = (do v <- get_slot o (w_utag w c) f; Ok (shows o c' v s))).
    { intros s1. rewrite (rt_attr_property w (S dp) c o (lit n) s1 _ _ E). eapply run_getter; eassumption. }
    destruct t; try discriminate G; cbn [get_ast get_method f].
    - change (off * ty_size _) with (off * 8). rewrite (run_text_get (S (S dp)) "_read_text_bytes" (off * 8) s (do b <- o_read_data o (off * 8) (Some []) (-1); Ok (opt_bytes b)) ltac:(cbn; tauto) eq_refl).
      destruct (o_read_data o (off * 8) (Some []) (-1)) as [[b|]|]; cbn [bind gives]; [| |reflexivity]; eexists _, _; split; reflexivity.
    - change (off * ty_size _) with (off * 8). rewrite (run_text_get (S (S dp)) "_read_data" (off * 8) s (do b <- o_read_data o (off * 8) (Some []) 0; Ok (opt_bytes b)) ltac:(cbn; tauto) eq_refl).
      destruct (o_read_data o (off * 8) (Some []) 0) as [[b|]|]; cbn [bind gives]; [| |reflexivity]; eexists _, _; split; reflexivity.
    - rewrite run_res, A. fold f. destruct (get_slot o (w_utag w c) f) as [v|] eqn:Ev; [|reflexivity]. cbn [bind]. apply slot_read in Ev. cbn [read_slot] in Ev.
      destruct (o_read_struct o (off * 8)) as [[x|]|]; [| |discriminate Ev]; injection Ev as <-; cbn [shows].
      + cbn [gives]. eexists _, _. split; [reflexivity|]. right. split; reflexivity.
      + destruct (Hc eq_refl) as (C1 & C2 & C3). rewrite (ev_from_buffer _ _ _ (n_cls nms) cls c' s) by (first [assumption|cbn; repeat (apply Forall_cons; [left; reflexivity|]); apply Forall_nil]).
        destruct (init_from_buffer {| sbuf := []; soffs := None |} 0 0 0) as [x|]; [|reflexivity]. cbn [bind gives]. eexists _, _. split; [reflexivity|]. left. reflexivity.
    - rewrite run_res, A. fold f. destruct (get_slot o (w_utag w c) f) as [v|] eqn:Ev; [|reflexivity]. cbn [bind]. apply slot_read in Ev. cbn [read_slot] in Ev.
      destruct (o_read_list o (off * 8) t) as [[x|]|]; [| |discriminate Ev]; injection Ev as <-; cbn [shows].
      + cbn [gives]. eexists _, _. split; reflexivity.
      + destruct Hi as (I1 & I2). unfold meth. set (L := lit "self" :: _). set (e1 := set_var _ (lit "res") _).
        rewrite (ev_call w (S (S dp)) L e1 _ (XMeth (XFun (lit "_List")) (lit "from_buffer")) _ s s [XV (PBytes []); XV (PInt 0); XV (PInt 0); XV (PInt 0); XItem t] s).
        * rewrite rt_call_fun_meth.
          change (call_fun_meth (lit "_List") (lit "from_buffer") [XV (PBytes []); XV (PInt 0); XV (PInt 0); XV (PInt 0); XItem t] s) with
            (do l <- list_init {| sbuf := []; soffs := None |} 0 0 0 t; Ok (XV (PList l), s)).
          destruct (list_init {| sbuf := []; soffs := None |} 0 0 0 t) as [l|]; [|reflexivity]. cbn [bind gives]. eexists _, _. split; reflexivity.
        * rewrite ev_dot, (ev_fun w (S (S dp)) L e1 "_List" s) by (first [cbn; tauto|reflexivity]). cbn [bind]. rewrite rt_fun_attr. reflexivity.
        * eapply ev_all_cons; [cbn [ev]; rewrite rt_bytes; reflexivity|].
          do 3 (eapply ev_all_cons; [apply ev_xnum|]). eapply ev_all_cons; [|reflexivity].
          rewrite (item_ev w (S (S dp)) L e1 (n_item nms) item s); [apply I2|unfold L; cbn; repeat (apply Forall_cons; [left; reflexivity|]); apply Forall_nil|exact I1].
  Qed.
End get_methods.

(** ** is_foo *)
Definition is_ast (off i : Z) : list pstmt := [qReturn (xCmp CEq (meth self "_read_int16" [num off]) (num i))].
Lemma is_block k item off i : ident item = true -> block k (is_text k item off i) [qDef None (lit "is_" ++ item) [(lit "self", None)] (is_ast off i)].
Proof.
  intros N. unfold is_text. rewrite !lns_cons, lns_nil, Nat.add_0_r.
  assert (Nh : name (lit "is_" ++ item)) by (apply name_under; [reflexivity|vm_compute; tauto|exact N]).
  replace (lit "def is_" ++ item ++ lit "(self):") with (lit "def " ++ (lit "is_" ++ item) ++ lit "(self):") by (rewrite <- !app_assoc; reflexivity).
  change [ln k (lit "def " ++ (lit "is_" ++ item) ++ lit "(self):"); ln (k + 4) (lit "return self._read_int16(" ++ dec off ++ lit ") == " ++ dec i)]
    with (deco_text k None ++ def_line k (lit "is_" ++ item) [(lit "self", None)] :: [ln (k + 4) (lit "return self._read_int16(" ++ dec off ++ lit ") == " ++ dec i)]).
  apply blk_def with (k' := (k + 4)%nat); [exact Logic.I|exact Nh| |exact Logic.I|reflexivity|lia|discriminate|].
  - apply Forall_cons; [|apply Forall_nil]. split; [nm|exact Logic.I].
  - apply ret_block; [wf|]. shs. reflexivity.
Qed.
Lemma is_run w dp c o off i s : keeps w c ->
  call_def (rt w dp) [(lit "self", None)] (is_ast off i) [XObj c o] [] s = (do t <- o_read_primitive o off Fh; Ok (XV (PBool (t =? i)), s)).
Proof.
  intros K. rewrite call_self. set (L := lit "self" :: flat_map assigned (is_ast off i)). set (e0 := set_var _ (lit "self") (XObj c o)).
  unfold is_ast. rewrite rb_return, ev_cmp.
  rewrite (ev_method w dp L e0 c o "_read_int16" _ s [XV (PInt off)] K ltac:(split; reflexivity) ltac:(cbn; tauto)) by (eapply ev_all_cons; [apply ev_num|reflexivity]).
  change (call_struct w c o (lit "_read_int16") [XV (PInt off)] []) with (do p <- o_read_primitive o off Fh; Ok (XV (PInt p))).
  destruct (o_read_primitive o off Fh) as [p|]; [|reflexivity]. cbn [bind]. rewrite ev_num. reflexivity.
Qed.
