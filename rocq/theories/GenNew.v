(** The text of the constructors: the statements of __new, as they are read,
    do what the statements of Ctor.v do. *)
From Coq Require Import Strings.String.
From Verif Require FloatBits Names CtorErr Const.
From Verif Require Import Base BaseFacts Spec Ptr Segment Builder Copy Struct List CopyList Case CaseFacts Loader Repr PyExpr
  Ctor CtorSlots CtorFacts PySyntax PySyntaxFacts PyPrint PyRun GenRun GenText TextSpec GenTextFacts GenTextRun.
From Coq Require Import Lists.List.
Local Notation length := Datatypes.length.
Local Open Scope string_scope.
Local Open Scope list_scope.
Local Open Scope Z_scope.

(** ** Names *)
Lemma lit_cons c a : lit (String c a) = Z.of_nat (Ascii.nat_of_ascii c) :: lit a. Proof. reflexivity. Qed.
Lemma lit_app a b : lit (a ++ b)%string = lit a ++ lit b.
Proof. induction a as [|c a IH]; [reflexivity|]. cbn [String.append]. rewrite !lit_cons, IH. reflexivity. Qed.
Lemma lit_inj a b : lit a = lit b -> a = b.
Proof.
  revert b. induction a as [|c a IH]; intros [|d b]; rewrite ?lit_cons; try discriminate; [reflexivity|]. intros H. injection H as H1 H2. f_equal; [|now apply IH].
  rewrite <- (Ascii.ascii_nat_embedding c), <- (Ascii.ascii_nat_embedding d). f_equal. lia.
Qed.
Lemma lit_eqb a b : str_eqb (lit a) (lit b) = String.eqb a b.
Proof.
  destruct (String.eqb_spec a b) as [->|N]; [apply str_eqb_refl|]. destruct (str_eqb (lit a) (lit b)) eqn:E; [|reflexivity]. apply str_eqb_spec in E. now apply lit_inj in E.
Qed.
Lemma in_existsb n L : In n L -> existsb (str_eqb n) L = true.
Proof. intros I. apply existsb_exists. exists n. split; [exact I|apply str_eqb_refl]. Qed.
(** a name whose first character is the one of a field *)
Definition fine (v : string) : Prop := py_name (lit v) /\ upper_or_underscore (lit v) = false.
Lemma fine_name v : fine v -> name (lit v). Proof. intros (H & _). exact H. Qed.
Lemma fine_suffix v p : fine v -> In 95 (lit p) -> forallb ident_char (lit p) = true -> fine (v ++ p)%string.
Proof.
  intros ((A & B) & C) I F. unfold fine, py_name. rewrite lit_app. split; [split|].
  - now apply ident_prefix.
  - apply keyword_underscore, in_or_app. now right.
  - destruct (lit v); [discriminate A|exact C].
Qed.
Lemma fine_under v n : fine v -> fine n -> fine (v ++ "_" ++ n)%string.
Proof.
  intros V ((A & _) & _). apply fine_suffix; [exact V|rewrite lit_app; now left|]. rewrite lit_app, forallb_app, (ident_chars _ A). reflexivity.
Qed.
Lemma fine_varname prefix n : prefix = "" \/ fine prefix -> fine n -> fine (varname prefix n).
Proof. intros P N. unfold varname. destruct prefix; [exact N|]. destruct P as [P|P]; [discriminate P|]. now apply fine_under. Qed.
Lemma fine_curtag v : fine v -> fine (curtag v).
Proof. intros V. apply fine_suffix; [exact V|vm_compute; tauto|reflexivity]. Qed.
Lemma fine_var v n : v <> "" -> varname v n = (v ++ "_" ++ n)%string.
Proof. destruct v; [contradiction|reflexivity]. Qed.
Lemma fine_ne v : fine v -> v <> "".
Proof. intros ((A & _) & _) ->. discriminate A. Qed.
Lemma ident_plain n : ident n = true -> plain n.
Proof.
  intros H c I. apply ident_chars in H. rewrite forallb_forall in H. specialize (H c I). split; [|split]; intros ->; discriminate H.
Qed.
Lemma sh_str s : sh (xStr s) = lit "'" ++ s ++ lit "'".
Proof. unfold sh. cbn [pcs flat flat_map spell]. apply app_nil_r. Qed.
Lemma lower_app A B : lower A -> lower B -> lower (A ++ B).
Proof. intros X Y. apply Forall_app. split; assumption. Qed.
Lemma lower_one v : fine v -> lower [lit v].
Proof. intros (_ & H). apply Forall_cons; [now left|apply Forall_nil]. Qed.

(** ** Variables *)
Definition inv (e : env) (fe : @vars xv) : Prop := forall v, fe (lit v) = option_map XV (e v).
Lemma inv_set e fe v x : inv e fe -> inv (setv e v x) (set_var fe (lit v) (XV x)).
Proof. intros H u. unfold set_var, setv. rewrite lit_eqb. destruct (String.eqb u v); [reflexivity|apply H]. Qed.
Lemma inv_set_all vs : forall xs e fe, inv e fe ->
  match set_all e vs xs with
  | Some e' => exists fe', set_vars fe (map lit vs) (map XV xs) = Some fe' /\ inv e' fe'
  | None => set_vars fe (map lit vs) (map XV xs) = None
  end.
Proof.
  induction vs as [|v vs IH]; intros [|x xs] e fe H; cbn [set_all map set_vars]; try reflexivity.
  - exists fe. auto.
  - apply IH. now apply inv_set.
Qed.

Section sim.
  Context (w : world) (fl : Z -> str) (nm : string -> string -> names).
  Notation fuel := (w_fuel w).

  (** *** Evaluating *)
  Section ev.
    Context (dp : nat) (L : list str) (e : env) (fe : @vars xv) (I : inv e fe).
    Notation R := (rt w dp).
    Lemma ev_app f args s : ev R L fe (xApp f args []) s = (do (g, s) <- ev R L fe f s; do (vs, s) <- ev_all R L fe args s; r_call R g vs [] s).
    Proof.
      cbn [ev]. destruct (ev R L fe f s) as [[g s1]|]; [|reflexivity]. cbn [bind].
      assert (X : forall l s, (fix all (l : list pexp) (s : st) : res (list xv * st) :=
         match l with [] => Ok ([], s) | a :: r => do (v, s) <- ev R L fe a s; do (vs, s) <- all r s; Ok (v :: vs, s) end) l s = ev_all R L fe l s).
      { clear. induction l as [|a l IH]; intros s; [reflexivity|]. cbn [ev_all]. destruct (ev R L fe a s) as [[v s']|]; [|reflexivity]. cbn [bind]. rewrite IH. reflexivity. }
      rewrite X. destruct (ev_all R L fe args s1) as [[vs s2]|]; reflexivity.
    Qed.
    Lemma var_in v : In (lit v) L -> var R L fe (lit v) = (do x <- lookup e v; Ok (XV x)).
    Proof. intros Hv. unfold var. rewrite (in_existsb _ _ Hv), I. unfold lookup. destruct (e v); reflexivity. Qed.
    Lemma ev_var v s : In (lit v) L -> ev R L fe (xVar (lit v)) s = (do x <- lookup e v; Ok (XV x, s)).
    Proof. intros Hv. cbn [ev]. rewrite var_in by exact Hv. destruct (lookup e v); reflexivity. Qed.
    Lemma rt_builder_attr x n s : r_attr R (XV x) n s = match x with PBuilder => if has_builder_method n then Ok (XMeth (XV x) n, s) else Err AttributeError | _ => Err AttributeError end.
    Proof. destruct dp; destruct x; reflexivity. Qed.
    Lemma rt_builder_call n args s : r_call R (XMeth (XV PBuilder) n) args [] s = call_builder w n args s.
    Proof. destruct dp; reflexivity. Qed.
    Lemma ev_builder m s : In (lit "builder") L -> has_builder_method m = true ->
      ev R L fe (xDot (V "builder") m) s = (do _ <- the_builder e; Ok (XMeth (XV PBuilder) m, s)).
    Proof.
      intros Hb Hm. rewrite ev_dot, (ev_var "builder") by exact Hb. unfold the_builder, lookup. destruct (e "builder") as [x|]; [|reflexivity].
      cbn [bind]. rewrite rt_builder_attr, Hm. destruct x; reflexivity.
    Qed.
    Lemma ev_pos off s : In (lit "pos") L -> ev R L fe (xBin BAdd (V "pos") (num off)) s = (do i <- at_pos e off; Ok (XV (PInt i), s)).
    Proof.
      intros Hp. rewrite ev_bin, (ev_var "pos") by exact Hp. unfold at_pos, lookup. destruct (e "pos") as [x|]; [|reflexivity]. cbn [bind]. rewrite ev_num. cbn [bind].
      destruct x; reflexivity.
    Qed.
    (** builder.m(pos + off, ...) *)
    Lemma ev_builder_call m args s : In (lit "builder") L -> has_builder_method m = true ->
      ev R L fe (xApp (xDot (V "builder") m) args []) s = (do _ <- the_builder e; do (vs, s) <- ev_all R L fe args s; call_builder w m vs s).
    Proof.
      intros Hb Hm. rewrite ev_app, ev_builder by assumption. destruct (the_builder e); [|reflexivity]. cbn [bind].
      destruct (ev_all R L fe args s) as [[vs s1]|]; [|reflexivity]. cbn [bind]. apply rt_builder_call.
    Qed.
  End ev.

  (** *** Statements *)
  Definition simulated (m : res (env * bytes)) (r : res (@outcome xv st)) (new : option obj) : Prop :=
    match m with
    | Ok (e', buf') => exists fe', r = Ok (Next fe' (mkst buf' new)) /\ inv e' fe'
    | Err er => r = Err er
    end.
  Record corr (ast : list pstmt) (txt : nat -> list str) (ms : list stmt) (vs : list string) : Prop := mkcorr {
    c_block : forall k, block k (txt k) ast;
    c_lower : lower (flat_map assigned ast);
    c_run : forall dp L e fe s, lower L -> incl (flat_map assigned ast) L -> In (lit "builder") L -> In (lit "pos") L ->
      (forall v, In v vs -> In (lit v) L) -> inv e fe ->
      simulated (exec fuel ms (e, s_buf s)) (run_block (rt w dp) L ast fe s) (s_new s) }.

  Lemma corr_nil vs : corr [] (fun _ => []) [] vs.
  Proof.
    split; [intros; apply blk_nil|apply Forall_nil|]. intros dp L e fe s _ _ _ _ _ I. exists fe. split; [destruct s; reflexivity|exact I].
  Qed.
  Lemma corr_app a t1 m1 vs b t2 m2 vs2 : corr a t1 m1 vs -> corr b t2 m2 vs2 ->
    (forall v, In v vs2 -> In v vs \/ In (lit v) (flat_map assigned a)) -> corr (a ++ b) (fun k => t1 k ++ t2 k) (m1 ++ m2) vs.
  Proof.
    intros A B H. split.
    - intros k. apply blk_app; [apply A|apply B].
    - rewrite flat_map_app. apply lower_app; [apply A|apply B].
    - intros dp L e fe s Lo In_ Hb Hp Hv I. rewrite flat_map_app in In_. rewrite exec_app, rb_app.
      pose proof (c_run _ _ _ _ A dp L e fe s Lo (fun x Hx => In_ x (in_or_app _ _ _ (or_introl Hx))) Hb Hp Hv I) as X. unfold simulated in X.
      destruct (exec fuel m1 (e, s_buf s)) as [[e1 b1]|er]; [|rewrite X; reflexivity]. destruct X as (fe1 & -> & I1). cbn [bind].
      apply (c_run _ _ _ _ B dp L e1 fe1 (mkst b1 (s_new s)) Lo (fun x Hx => In_ x (in_or_app _ _ _ (or_intror Hx))) Hb Hp); [|exact I1].
      intros v Iv. destruct (H v Iv) as [X|X]; [now apply Hv|]. apply In_, in_or_app. now left.
  Qed.
  Lemma corr_sub a t m vs vs' : corr a t m vs -> incl vs vs' -> corr a t m vs'.
  Proof. intros [A B C] H. split; auto. Qed.
  Lemma corr_text a t t' m vs : corr a t m vs -> (forall k, t' k = t k) -> corr a t' m vs.
  Proof. intros [A B C] H. split; auto. intros k. rewrite H. apply A. Qed.
  Lemma corr_one q s m vs : (forall k, block k [ln k s] [q]) -> lower (assigned q) ->
    (forall dp L e fe s, lower L -> incl (assigned q) L -> In (lit "builder") L -> In (lit "pos") L -> (forall v, In v vs -> In (lit v) L) -> inv e fe ->
      simulated (exec_stmt fuel m (e, s_buf s)) (run_block (rt w dp) L [q] fe s) (s_new s)) ->
    corr [q] (fun k => [ln k s]) [m] vs.
  Proof.
    intros B Lo C. split; cbn [flat_map]; rewrite ?app_nil_r; auto. intros dp L e fe st H1 H2 H3 H4 H5 H6.
    specialize (C dp L e fe st H1 H2 H3 H4 H5 H6). cbn [exec]. destruct (exec_stmt fuel m (e, s_buf st)) as [[e1 b1]|]; exact C.
  Qed.

  (** *** v = None, v = _check_tag(v, 'name') *)
  Lemma corr_none v : fine v -> corr [set v (xConst CNone)] (fun k => [ln k (lit v ++ lit " = None")]) [SNone v] [].
  Proof.
    intros F. apply corr_one.
    - intros k. apply set_block; [now apply fine_name|wf|reflexivity].
    - now apply lower_one.
    - intros dp L e fe s _ _ _ _ _ I. unfold set. rewrite rb_set, ev_const. cbn [bind exec_stmt simulated]. eexists. split; [destruct s; reflexivity|]. now apply inv_set.
  Qed.
  Lemma corr_tag v n : fine v -> fine n ->
    corr [set v (xApp (V "_check_tag") [xVar (lit v); xStr (lit n)] [])] (fun k => [ln k (lit v ++ lit " = _check_tag(" ++ lit v ++ lit ", '" ++ lit n ++ lit "')")]) [SCheckTag v] [].
  Proof.
    intros F N. assert (Fv := fine_name _ F). assert (P : plain (lit n)) by (apply ident_plain, N). apply corr_one.
    - intros k. apply set_block; [exact Fv|wf|]. shs. rewrite sh_str. rewrite <- ?app_assoc. reflexivity.
    - now apply lower_one.
    - intros dp L e fe s Lo Is _ _ _ I. assert (Hv : In (lit v) L) by (apply Is; now left).
      unfold set. rewrite rb_set, ev_app. rewrite (ev_fun w dp L fe "_check_tag") by (first [cbn; tauto|apply lower_not; [exact Lo|reflexivity|discriminate]]).
      cbn [bind ev_all]. rewrite (ev_var dp L e fe I v s Hv). cbn [exec_stmt]. destruct (lookup e v) as [x|]; [|reflexivity]. cbn [bind ev].
      rewrite rt_call_fun. assert (X : r_str (rt w dp) (lit n) = XStr (lit n)) by (destruct dp; reflexivity). rewrite X.
      destruct x; try reflexivity. cbn [bind simulated]. eexists. split; [destruct s; reflexivity|]. now apply inv_set.
  Qed.

  (** *** calls of the builder *)
  Lemma corr_call m args t ms vs : name m -> has_builder_method m = true -> wfx (xApp (xDot (V "builder") m) args []) ->
    t = sh (xApp (xDot (V "builder") m) args []) ->
    (forall dp L e fe s, lower L -> In (lit "pos") L -> (forall v, In v vs -> In (lit v) L) -> inv e fe ->
       simulated (exec_stmt fuel ms (e, s_buf s))
         (do _ <- the_builder e; do (xs, s) <- ev_all (rt w dp) L fe args s; do (_, s) <- call_builder w m xs s; Ok (Next fe s)) (s_new s)) ->
    corr [qExpr (xApp (xDot (V "builder") m) args [])] (fun k => [ln k t]) [ms] vs.
  Proof.
    intros Nm Hm W -> C. apply corr_one; [intros k; apply blk_expr; [exact W|reflexivity]|apply Forall_nil|].
    intros dp L e fe s Lo Is Hb Hp Hv I. rewrite rb_expr, (ev_builder_call dp L e fe I m args s Hb Hm).
    specialize (C dp L e fe s Lo Hp Hv I).
    destruct (the_builder e); [|exact C]. cbn [bind] in C |- *. destruct (ev_all (rt w dp) L fe args s) as [[xs s1]|]; [|exact C]. cbn [bind] in C |- *.
    destruct (call_builder w m xs s1) as [[x s2]|]; exact C.
  Qed.

  Lemma writer_type f : writer (lit "write_" ++ type_name f) = Some f.
  Proof. destruct f as [[]| |]; reflexivity. Qed.
  Lemma name_type f : name (lit "write_" ++ type_name f).
  Proof. destruct f as [[]| |]; split; reflexivity. Qed.
  Lemma has_writer m f : writer m = Some f -> has_builder_method m = true.
  Proof. intros H. unfold has_builder_method. now rewrite H. Qed.
  Definition at_off (off : Z) : pexp := xBin BAdd (V "pos") (num off).
  Lemma wf_at off : wfx (at_off off). Proof. unfold at_off. wf. Qed.
  Lemma sh_at off : sh (at_off off) = lit "pos + " ++ dec off. Proof. unfold at_off. shs. reflexivity. Qed.

  Lemma corr_tagval off d : corr [qExpr (xApp (xDot (V "builder") (lit "write_int16")) [num off; num d] [])]
    (fun k => [ln k (lit "builder.write_int16(" ++ dec off ++ lit ", " ++ dec d ++ lit ")")]) [STag off d] [].
  Proof.
    apply corr_call; [nm|reflexivity|wf|shs; reflexivity|]. intros dp L e fe s _ _ _ I. cbn [exec_stmt]. destruct (the_builder e); [|reflexivity]. cbn [bind ev_all].
    rewrite !ev_num. cbn [bind]. rewrite ev_num. cbn [bind]. change (call_builder w (lit "write_int16") [XV (PInt off); XV (PInt d)] s) with
      (do buf <- b_write Fh (s_buf s) off d; Ok (XV PNone, mkst buf (s_new s))).
    destruct (b_write Fh (s_buf s) off d) as [b|]; [|reflexivity]. cbn [bind simulated]. eauto.
  Qed.
  Ltac two v Hp Hv I := 
    cbn [exec_stmt]; destruct (the_builder _); [|reflexivity]; cbn [bind ev_all]; unfold at_off; rewrite (ev_pos _ _ _ _ I _ _ Hp);
    destruct (at_pos _ _); [|reflexivity]; cbn [bind]; rewrite (ev_var _ _ _ _ I v _ (Hv _ (or_introl eq_refl))); destruct (lookup _ _); [|reflexivity]; cbn [bind].
  Lemma corr_write f off v : fine v -> corr [qExpr (xApp (xDot (V "builder") (lit "write_" ++ type_name f)) [at_off off; xVar (lit v)] [])]
    (fun k => write_text k f off (lit v)) [SWrite f off v] [v].
  Proof.
    intros F. assert (Nv := fine_name _ F). assert (Nf := name_type f). assert (Wa := wf_at off).
    apply corr_call; [exact Nf|apply has_writer with (f := f), writer_type|wf| |].
    { shs. rewrite sh_at. rewrite <- ?app_assoc. reflexivity. }
    intros dp L e fe s Lo Hp Hv I. two v Hp Hv I.
    unfold call_builder. rewrite writer_type. cbn [as_pos bind]. destruct (write_scalar f (s_buf s) _ _) as [b|]; [|reflexivity]. cbn [bind simulated]. eauto.
  Qed.
  Lemma corr_bool a b v : fine v -> corr [qExpr (xApp (xDot (V "builder") (lit "write_bool")) [num a; num b; xVar (lit v)] [])]
    (fun k => [ln k (lit "builder.write_bool(" ++ dec a ++ lit ", " ++ dec b ++ lit ", " ++ lit v ++ lit ")")]) [SWriteBool a b v] [v].
  Proof.
    intros F. assert (Nv := fine_name _ F). apply corr_call; [nm|reflexivity|wf|shs; reflexivity|]. intros dp L e fe s Lo Hp Hv I.
    cbn [exec_stmt]. destruct (the_builder e); [|reflexivity]. cbn [bind ev_all]. rewrite ev_num. cbn [bind]. rewrite ev_num. cbn [bind].
    rewrite (ev_var dp L e fe I v s (Hv v (or_introl eq_refl))). destruct (lookup e v) as [x|]; [|reflexivity]. cbn [bind].
    change (call_builder w (lit "write_bool") [XV (PInt a); XV (PInt b); XV x] s) with
      (do z <- as_shift x; do buf <- write_bool (s_buf s) a b z; Ok (XV PNone, mkst buf (s_new s))).
    destruct (as_shift x) as [z|]; [|reflexivity]. cbn [bind]. destruct (write_bool (s_buf s) a b z); [|reflexivity]. cbn [bind simulated]. eauto.
  Qed.
  Lemma corr_bytes (nul : bool) off v : fine v -> corr [qExpr (xApp (xDot (V "builder") (lit (if nul then "alloc_text" else "alloc_data"))) [at_off off; xVar (lit v)] [])]
    (fun k => [ln k (lit (if nul then "builder.alloc_text(pos + " else "builder.alloc_data(pos + ") ++ dec off ++ lit ", " ++ lit v ++ lit ")")]) [SText nul off v] [v].
  Proof.
    intros F. assert (Nv := fine_name _ F). assert (Wa := wf_at off).
    assert (Nm : name (lit (if nul then "alloc_text" else "alloc_data"))) by (destruct nul; nm).
    apply corr_call; [exact Nm|destruct nul; reflexivity|wf| |].
    { shs. rewrite sh_at. rewrite <- ?app_assoc. destruct nul; reflexivity. }
    intros dp L e fe s Lo Hp Hv I. two v Hp Hv I.
    destruct nul.
    - replace (call_builder w (lit "alloc_text") [XV (PInt a0); XV a1] s) with
        (do b <- as_bytes a1; do buf <- (do (buf, _) <- alloc_text (s_buf s) a0 b; Ok buf); Ok (XV PNone, mkst buf (s_new s))) by (destruct a1; reflexivity).
      destruct (as_bytes a1); [|reflexivity]. cbn [bind]. destruct (alloc_text _ _ _) as [[b ?]|]; [|reflexivity]. cbn [bind simulated]. eauto.
    - replace (call_builder w (lit "alloc_data") [XV (PInt a0); XV a1] s) with
        (do b <- as_bytes a1; do buf <- (do (buf, _) <- alloc_data (s_buf s) a0 b; Ok buf); Ok (XV PNone, mkst buf (s_new s))) by (destruct a1; reflexivity).
      destruct (as_bytes a1); [|reflexivity]. cbn [bind]. destruct (alloc_data _ _ _) as [[b ?]|]; [|reflexivity]. cbn [bind simulated]. eauto.
  Qed.
  Lemma corr_struct off v t x c : fine v -> cls_text t x -> (forall dp st, ev (rt w dp) [] (fun _ => None) x st = Ok (XCls c, st)) ->
    corr [qExpr (xApp (xDot (V "builder") (lit "copy_from_struct")) [at_off off; x; xVar (lit v)] [])]
    (fun k => [ln k (lit "builder.copy_from_struct(pos + " ++ dec off ++ lit ", " ++ t ++ lit ", " ++ lit v ++ lit ")")]) [SStruct off v] [v].
  Proof.
    intros F T Ex. assert (Nv := fine_name _ F). assert (Wa := wf_at off). destruct (cls_sh t x T) as (Es & Ws & _).
    apply corr_call; [nm|reflexivity|wf| |].
    { shs. rewrite sh_at, Es. rewrite <- ?app_assoc. reflexivity. }
    intros dp L e fe s Lo Hp Hv I. cbn [exec_stmt]. destruct (the_builder _); [|reflexivity]; cbn [bind ev_all]. unfold at_off. rewrite (ev_pos _ _ _ _ I _ _ Hp).
    destruct (at_pos _ _) as [i|]; [|reflexivity]. cbn [bind]. rewrite (cls_ev w dp L fe t x s Lo T), Ex. cbn [bind].
    rewrite (ev_var _ _ _ _ I v _ (Hv _ (or_introl eq_refl))); destruct (lookup _ _) as [y|]; [|reflexivity]; cbn [bind].
    change (call_builder w (lit "copy_from_struct") [XV (PInt i); XCls c; XV y] s) with
      (do buf <- copy_struct_arg fuel (s_buf s) i y; Ok (XV PNone, mkst buf (s_new s))).
    destruct (copy_struct_arg fuel (s_buf s) i y); [|reflexivity]. cbn [bind simulated]. eauto.
  Qed.
  Lemma corr_list off v t x it : fine v -> item_text t x -> (forall dp st, ev (rt w dp) [] (fun _ => None) x st = Ok (XItem it, st)) ->
    corr [qExpr (xApp (xDot (V "builder") (lit "copy_from_list")) [at_off off; x; xVar (lit v)] [])]
    (fun k => [ln k (lit "builder.copy_from_list(pos + " ++ dec off ++ lit ", " ++ t ++ lit ", " ++ lit v ++ lit ")")]) [SList it off v] [v].
  Proof.
    intros F T Ex. assert (Nv := fine_name _ F). assert (Wa := wf_at off). destruct (item_sh t x T) as (Es & Ws & _).
    apply corr_call; [nm|reflexivity|wf| |].
    { shs. rewrite sh_at, Es. rewrite <- ?app_assoc. reflexivity. }
    intros dp L e fe s Lo Hp Hv I. cbn [exec_stmt]. destruct (the_builder _); [|reflexivity]; cbn [bind ev_all]. unfold at_off. rewrite (ev_pos _ _ _ _ I _ _ Hp).
    destruct (at_pos _ _) as [i|]; [|reflexivity]. cbn [bind]. rewrite (item_ev w dp L fe t x s Lo T), Ex. cbn [bind].
    rewrite (ev_var _ _ _ _ I v _ (Hv _ (or_introl eq_refl))); destruct (lookup _ _) as [y|]; [|reflexivity]; cbn [bind].
    change (call_builder w (lit "copy_from_list") [XV (PInt i); XItem it; XV y] s) with
      (do buf <- copy_from_list fuel it (s_buf s) i y; Ok (XV PNone, mkst buf (s_new s))).
    destruct (copy_from_list fuel it (s_buf s) i y); [|reflexivity]. cbn [bind simulated]. eauto.
  Qed.
  Lemma corr_raise t : plain t -> corr [qRaise (xApp (V "NotImplementedError") [xStr t] [])] (fun k => [ln k (lit "raise NotImplementedError('" ++ t ++ lit "')")]) [SRaise] [].
  Proof.
    intros P. apply corr_one; [|apply Forall_nil|].
    - intros k. replace (lit "raise NotImplementedError('" ++ t ++ lit "')") with (lit "raise " ++ sh (xApp (V "NotImplementedError") [xStr t] [])).
      + apply blk_raise. wf.
      + shs. rewrite sh_str. rewrite <- ?app_assoc. reflexivity.
    - intros dp L e fe s Lo _ _ _ _ I. rewrite rb_raise, ev_app. rewrite (ev_fun w dp L fe "NotImplementedError") by (first [cbn; tauto|apply lower_not; [exact Lo|reflexivity|discriminate]]).
      cbn [bind ev_all ev]. rewrite rt_call_fun. assert (X : r_str (rt w dp) t = XStr t) by (destruct dp; reflexivity). rewrite X. destruct dp; reflexivity.
  Qed.
  (** v ^= default *)
  Lemma corr_xor v t d : fine v -> slot_float w fl t d ->
    corr [qAug (lit v) BXor (slot_ast fl t d)] (fun k => [ln k (lit v ++ lit " ^= " ++ slot_text fl t d)]) [SXor v (slot_default t d)] [v].
  Proof.
    intros F S. destruct (slot_ast_ok w fl t d S) as (E & W & _ & Ev). apply corr_one.
    - intros k. rewrite <- E. apply (blk_aug k (lit v) BXor); [now apply fine_name|exact W].
    - now apply lower_one.
    - intros dp L e fe s _ _ _ _ Hv I. rewrite rb_aug, (var_in dp L e fe I v (Hv v (or_introl eq_refl))). cbn [exec_stmt]. destruct (lookup e v) as [x|]; [|reflexivity]. cbn [bind].
      rewrite Ev. cbn [bind]. rewrite rt_bin. cbn [x_bin]. destruct (py_xor x (slot_default t d)) as [y|]; [|reflexivity]. cbn [bind simulated]. eexists. split; [destruct s; reflexivity|]. now apply inv_set.
  Qed.

  (** *** slots (structor.py:151-205) *)
  Lemma corr_slot ds prefix n t off ex d c : fine (varname prefix n) -> refers w fl (nm prefix n) t d c ->
    (t = TAny -> plain (n_repr (nm prefix n))) ->
    exists ast, corr ast (fun k => new_slot_text fl nm k ds prefix n t off ex d) (emit_slot ds (varname prefix n) t off ex d) [varname prefix n].
  Proof.
    intros F H P. set (v := varname prefix n) in *.
    assert (X : forall f ast, slot_float w fl t d ->
       corr ast (fun k => f k) (match t with TBool => [SWriteBool (off / 8) (off mod 8) v] | TPrim f => [SWrite (WInt f) (slot_offset ds t off) v] | TEnum => [SWrite (WInt Fh) (slot_offset ds t off) v] | TFloat32 => [SWrite WF32 (slot_offset ds t off) v] | TFloat64 => [SWrite WF64 (slot_offset ds t off) v] | _ => [] end) [v] ->
       exists ast', corr ast' (fun k => xor_text fl k ex (lit v) t d ++ f k) ((if ex then [SXor v (slot_default t d)] else []) ++ match t with TBool => [SWriteBool (off / 8) (off mod 8) v] | TPrim f => [SWrite (WInt f) (slot_offset ds t off) v] | TEnum => [SWrite (WInt Fh) (slot_offset ds t off) v] | TFloat32 => [SWrite WF32 (slot_offset ds t off) v] | TFloat64 => [SWrite WF64 (slot_offset ds t off) v] | _ => [] end) [v]).
    { intros f ast S C. unfold xor_text. destruct ex; [|exists ast; exact C]. eexists. eapply corr_app; [apply corr_xor; assumption|exact C|]. auto. }
    destruct t; cbn [new_slot_text emit_slot refers] in *.
    - eexists. apply corr_nil.
    - eapply X; [exact Logic.I|apply corr_write, F].
    - eapply X; [apply H|apply corr_write, F].
    - eapply X; [apply H|apply corr_write, F].
    - eapply X; [exact Logic.I|apply corr_bool, F].
    - eapply X; [exact Logic.I|apply corr_write, F].
    - eexists. exact (corr_bytes true _ v F).
    - eexists. exact (corr_bytes false _ v F).
    - destruct H as ((x & T & Ex) & _). eexists. eapply corr_struct; eassumption.
    - destruct H as (x & T & Ex). eexists. eapply corr_list; eassumption.
    - eexists. eapply corr_sub; [|apply incl_nil_l]. eapply corr_text; [apply (corr_raise (lit "Unsupported field type: " ++ n_repr (nm prefix n)))|].
      + intros ch Ich. apply in_app_or in Ich. destruct Ich as [Ich|Ich]; [|now apply (P eq_refl)]. vm_compute in Ich. clear - Ich. decompose [or] Ich; try contradiction; subst ch; repeat split; discriminate.
      + intros k. rewrite <- ?app_assoc. reflexivity.
  Qed.

  (** *** if v is not _undefined: *)
  Lemma ev_undefined dp L fe s : lower L -> ev (rt w dp) L fe (V "_undefined") s = Ok (XV PUndef, s).
  Proof. intros Lo. cbn [ev]. unfold var. rewrite (lower_not L (lit "_undefined") Lo) by (reflexivity || discriminate). now rewrite rt_undefined. Qed.
  Lemma corr_ifdef v a t ms vs : fine v -> a <> [] -> corr a t ms vs ->
    corr [qIf (xCmp CIsNot (xVar (lit v)) (V "_undefined")) a []] (fun k => ln k (lit "if " ++ lit v ++ lit " is not _undefined:") :: t (k + 4)%nat) [SIfDef v ms] (v :: vs).
  Proof.
    intros F Na C. assert (Nv := fine_name _ F). split.
    - intros k. apply if_block with (k' := (k + 4)%nat); [wf|shs; reflexivity|lia|exact Na|apply C].
    - cbn [flat_map assigned]. rewrite !app_nil_r. apply C.
    - intros dp L e fe s Lo Is Hb Hp Hv I. cbn [flat_map assigned] in Is. rewrite !app_nil_r in Is.
      rewrite rb_if, ev_cmp, (ev_var dp L e fe I v s (Hv v (or_introl eq_refl))). cbn [exec]. rewrite CtorErr.exec_if. destruct (lookup e v) as [x|]; [|reflexivity]. cbn [bind].
      rewrite ev_undefined by exact Lo. cbn [bind].
      assert (X : x_cmp CIsNot (XV x) (XV PUndef) = Ok (match x with PUndef => false | _ => true end)) by (destruct x; reflexivity). rewrite X. cbn [bind].
      rewrite rt_truth. cbn [x_truth bind].
      assert (D : x = PUndef \/ x <> PUndef) by (destruct x; auto; right; discriminate). destruct D as [-> | D].
      + cbn [bind run_block]. exists fe. split; [destruct s; reflexivity|exact I].
      + replace (match x with PUndef => false | _ => true end) with true by (destruct x; congruence).
        replace (match x with PUndef => Ok (e, s_buf s) | _ => exec fuel ms (e, s_buf s) end) with (exec fuel ms (e, s_buf s)) by (destruct x; congruence).
        pose proof (c_run _ _ _ _ C dp L e fe s Lo Is Hb Hp (fun u Hu => Hv u (or_intror Hu)) I) as Y. unfold simulated in Y |- *.
        destruct (exec fuel ms (e, s_buf s)) as [[e1 b1]|]; [|rewrite Y; reflexivity]. destruct Y as (fe1 & -> & I1). cbn [bind]. exists fe1. auto.
  Qed.

  (** *** a, b, = v *)
  Lemma corr_unpack vs v : fine v -> vs <> [] -> Forall fine vs ->
    corr [qSet (tMany (map lit vs)) (xVar (lit v))] (fun k => [ln k (args_text (map lit vs) ++ lit ", = " ++ lit v)]) [SUnpack vs v] [v].
  Proof.
    intros F Ne Fs. assert (Nv := fine_name _ F). apply corr_one.
    - intros k. rewrite <- (sh_var (lit v)) at 1. apply blk_set_many; [destruct vs; [contradiction|discriminate]| |exact Nv].
      apply Forall_map. eapply Forall_impl; [|exact Fs]. apply fine_name.
    - apply Forall_map. eapply Forall_impl; [|exact Fs]. intros u (_ & U). now left.
    - intros dp L e fe s Lo Is Hb Hp Hv I. rewrite rb_many, (ev_var dp L e fe I v s (Hv v (or_introl eq_refl))). cbn [exec_stmt]. destruct (lookup e v) as [x|]; [|reflexivity]. cbn [bind].
      rewrite rt_iter. cbn [x_iter]. destruct (py_iter x) as [xs|]; [|reflexivity]. cbn [bind]. pose proof (inv_set_all vs xs e fe I) as X.
      destruct (set_all e vs xs) as [e1|]; [|rewrite X; reflexivity]. destruct X as (fe1 & -> & I1). exists fe1. split; [destruct s; reflexivity|exact I1].
  Qed.

  (** *** defaults *)
  Fixpoint dflt_ast (force : option (string * Z)) (f : field) : pexp :=
    let force_default := match force with Some k => same_field f k | None => false end in
    if is_member f && negb force_default then V "_undefined"
    else
      match f with
      | FSlot _ _ _ t _ _ d => slot_ast fl t d
      | FGroup _ _ _ nullable _ fs =>
          let items := (fix go l := match l with
                                    | [] => []
                                    | g :: r => if visible g then dflt_ast force g :: go r else go r
                                    end) fs in
          if nullable then
            match fs, items with
            | FSlot _ _ _ _ _ _ d :: _, _ :: v :: _ => if negb (d =? 0) then xConst CNone else v
            | _, _ => xConst CNone
            end
          else xTup items
      end.
  Definition good_dflt (force : option (string * Z)) (f : field) (x : pexp) : Prop :=
    sh x = default_text fl force f /\ wfx x /\ (3 <= lvl x)%nat /\
    forall dp L e st, lower L -> ev (rt w dp) L e x st = Ok (XV (default force f), st).
  Lemma refers_float nms t d c : refers w fl nms t d c -> slot_float w fl t d.
  Proof. destruct t; cbn [refers slot_float]; try (intros _; exact Logic.I); tauto. Qed.
  Lemma described_all union prefix n o dc nl u fs : described w fl nm union prefix (FGroup n o dc nl u fs) ->
    forall g, In g (filter visible fs) -> described w fl nm (match u with Some _ => true | None => false end) (varname prefix n) g.
  Proof.
    intros (_ & _ & _ & _ & _ & H) g Hg. apply filter_In in Hg. destruct Hg as (Ig & Vg).
    induction fs as [|x r IH]; [destruct Ig|]. destruct H as (H1 & H2). destruct Ig as [->|Ig]; [now apply H1|now apply IH].
  Qed.
  Lemma go_filter {A} (P : field -> A) fs : (fix go l := match l with [] => [] | g :: r => if visible g then P g :: go r else go r end) fs = map P (filter visible fs).
  Proof. induction fs as [|g r IH]; [reflexivity|]. cbn [filter]. destruct (visible g); [cbn [map]; now rewrite IH|exact IH]. Qed.
  Lemma go_filter_app {A} (P : field -> list A) fs : (fix go l := match l with [] => [] | g :: r => if visible g then P g ++ go r else go r end) fs = flat_map P (filter visible fs).
  Proof. induction fs as [|g r IH]; [reflexivity|]. cbn [filter]. destruct (visible g); [cbn [flat_map]; now rewrite IH|exact IH]. Qed.

  Lemma dflt_ok force f : forall union prefix, described w fl nm union prefix f -> good_dflt force f (dflt_ast force f).
  Proof.
    induction f as [n o dc t off ex d|n o dc nl u fs IH] using field_ind'; intros union prefix H.
    - unfold good_dflt. cbn [dflt_ast default_text default]. destruct (is_member _ && negb _).
      + split; [reflexivity|]. split; [wf|]. split; [cbn; lia|]. intros. now apply ev_undefined.
      + destruct H as (_ & _ & _ & (c & Hr) & _). destruct (slot_ast_ok w fl t d (refers_float _ _ _ _ Hr)) as (A & B & C & D). auto.
    - unfold good_dflt. cbn [dflt_ast default_text default]. rewrite !go_filter. destruct (is_member _ && negb _).
      + split; [reflexivity|]. split; [wf|]. split; [cbn; lia|]. intros. now apply ev_undefined.
      + assert (G : Forall (fun g => good_dflt force g (dflt_ast force g)) (filter visible fs)).
        { apply Forall_forall. intros g Ig. rewrite Forall_forall in IH. eapply IH; [|eapply described_all; eassumption]. apply filter_In in Ig. apply Ig. }
        destruct H as (_ & _ & _ & Hvis & Hn & _). destruct nl.
        * destruct (Hn eq_refl) as (fi & fv & -> & _ & _ & Vi & Vv & Fi). destruct fi as [ni oi di ti offi exi dv|]; [|destruct Fi]. cbn [filter] in G |- *. rewrite Vi, Vv in G |- *. cbn [map].
          destruct (negb (dv =? 0)).
          -- split; [reflexivity|]. split; [exact Logic.I|]. split; [cbn; lia|]. intros. apply ev_const.
          -- inversion G as [|? ? _ G2]; subst. inversion G2; subst. assumption.
        * set (gs := filter visible fs) in *.
          assert (Ne : gs <> []).
          { intros E. apply existsb_exists in Hvis. destruct Hvis as (g & Ig & Vg). assert (X : In g gs) by (apply filter_In; auto). rewrite E in X. destruct X. }
          clearbody gs. clear - G Ne. split; [|split; [|split; [cbn; lia|]]].
          -- rewrite sh_tup. f_equal. f_equal. f_equal. induction G as [|g r H G IH]; [reflexivity|]. cbn [map]. destruct H as (-> & _). f_equal. destruct r; [reflexivity|]. apply IH. discriminate.
          -- cbn [wfx]. split; [destruct gs; [contradiction|discriminate]|]. clear Ne. induction G as [|g r H G IH]; [exact Logic.I|]. cbn [map]. split; [apply H|exact IH].
          -- intros dp L e st Lo. cbn [ev].
             assert (X : forall st, (fix all (l : list pexp) (s : GenRun.st) : res (list xv * GenRun.st) :=
               match l with [] => Ok ([], s) | a :: r => do (v, s) <- ev (rt w dp) L e a s; do (vs, s) <- all r s; Ok (v :: vs, s) end) (map (dflt_ast force) gs) st
               = Ok (map XV (map (default force) gs), st)).
             { clear - G Lo. induction G as [|g r H G IH]; intros st; [reflexivity|]. cbn [map]. destruct H as (_ & _ & _ & H). rewrite H by exact Lo. cbn [bind]. rewrite IH. reflexivity. }
             rewrite X. cbn [bind]. replace (r_tuple (rt w dp) (map XV (map (default force) gs))) with (@Ok xv (XV (PSeq (map (default force) gs)))); [reflexivity|].
             replace (r_tuple (rt w dp)) with (fun l => do vs <- x_tuple l; Ok (XV (PSeq vs))) by (destruct dp; reflexivity).
             generalize (map (default force) gs). clear. intros l. assert (Y : x_tuple (map XV l) = Ok l) by (induction l as [|a l IH]; [reflexivity|cbn [map x_tuple]; rewrite IH; reflexivity]).
             rewrite Y. reflexivity.
  Qed.

  (** *** nullable groups *)
  Lemma corr_null v x d : fine v ->  wfx x -> (forall dp L e st, lower L -> ev (rt w dp) L e x st = Ok (XV d, st)) ->
    corr [qIf (xCmp CIs (xVar (lit v)) (xConst CNone))
            [set (v ++ "_is_null") (xNum 1); set (v ++ "_value") x]
            [set (v ++ "_is_null") (xNum 0); set (v ++ "_value") (xVar (lit v))]]
      (fun k => lns k [(0%nat, lit "if " ++ lit v ++ lit " is None:");
                       (4%nat, lit v ++ lit "_is_null = 1");
                       (4%nat, lit v ++ lit "_value = " ++ sh x);
                       (0%nat, lit "else:");
                       (4%nat, lit v ++ lit "_is_null = 0");
                       (4%nat, lit v ++ lit "_value = " ++ lit v)]) [SNull v d] [v].
  Proof.
    intros F Wx Ex. assert (Nv := fine_name _ F).
    assert (F1 : fine (v ++ "_is_null")%string) by (apply fine_suffix; [exact F|vm_compute; tauto|reflexivity]).
    assert (F2 : fine (v ++ "_value")%string) by (apply fine_suffix; [exact F|vm_compute; tauto|reflexivity]).
    assert (N1 := fine_name _ F1). assert (N2 := fine_name _ F2).
    split.
    - intros k. rewrite !lns_cons, lns_nil, !Nat.add_0_r.
      replace (lit "if " ++ lit v ++ lit " is None:") with (lit "if " ++ sh (xCmp CIs (xVar (lit v)) (xConst CNone)) ++ lit ":") by (shs; reflexivity).
      apply (blk_if_else k (k + 4) (k + 4) _ [_; _] _ [_; _] _); try lia; try discriminate; [wf| |].
      + apply (blk_app (k + 4) [_] [_] [_] [_]); apply set_block; try assumption; [wf| |]; rewrite lit_app, <- app_assoc; reflexivity.
      + apply (blk_app (k + 4) [_] [_] [_] [_]); apply set_block; try assumption; [wf| |]; rewrite lit_app, <- app_assoc; [reflexivity|]. rewrite sh_var. reflexivity.
    - cbn [flat_map assigned set app]. repeat (apply Forall_cons; [left; first [apply F1|apply F2]|]). apply Forall_nil.
    - intros dp L e fe s Lo Is Hb Hp Hv I. cbn [exec exec_stmt]. rewrite rb_if, ev_cmp, (ev_var dp L e fe I v s (Hv v (or_introl eq_refl))). destruct (lookup e v) as [y|] eqn:Ey; [|reflexivity]. cbn [bind].
      rewrite ev_const. cbn [bind]. assert (X : x_cmp CIs (XV y) (XV PNone) = Ok (match y with PNone => true | _ => false end)) by (destruct y; reflexivity). rewrite X. cbn [bind].
      rewrite rt_truth. cbn [x_truth bind].
      assert (D : y = PNone \/ y <> PNone) by (destruct y; auto; right; discriminate). destruct D as [-> | D].
      + unfold set. rewrite rb_set, ev_xnum. cbn [bind]. rewrite rb_set, Ex by exact Lo. cbn [bind run_block]. eexists. split; [destruct s; reflexivity|]. now apply inv_set, inv_set.
      + replace (match y with PNone => true | _ => false end) with false by (destruct y; congruence).
        replace (match y with PNone => Ok (setv (setv e (v ++ "_is_null") (PInt 1)) (v ++ "_value") d, s_buf s) | _ => Ok (setv (setv e (v ++ "_is_null") (PInt 0)) (v ++ "_value") y, s_buf s) end)
          with (@Ok (env * bytes) (setv (setv e (v ++ "_is_null") (PInt 0)) (v ++ "_value") y, s_buf s)) by (destruct y; congruence).
        unfold set. rewrite rb_set, ev_xnum. cbn [bind]. rewrite rb_set.
        assert (I1 := inv_set e fe (v ++ "_is_null") (PInt 0) I).
        assert (Ev : setv e (v ++ "_is_null") (PInt 0) v = e v).
        { apply setv_other. intros E. apply (f_equal (fun x => length (lit x))) in E. rewrite lit_app, app_length in E. change (length (lit "_is_null")) with 8%nat in E. lia. }
        rewrite (ev_var dp L _ _ I1 v s (Hv v (or_introl eq_refl))). unfold lookup. rewrite Ev.
        unfold lookup in Ey. destruct (e v); [|discriminate Ey]. injection Ey as ->. cbn [bind run_block simulated]. eexists. split; [destruct s; reflexivity|]. now apply inv_set.
  Qed.

  (** *** a field (structor.py:63-149) *)
  Definition new_body_text (k : nat) (ds : Z) (prefix : string) (f : field) : list str :=
    let v := varname prefix (f_name f) in
    match f with
    | FSlot n _ _ t off explicit d => new_slot_text fl nm k ds prefix n t off explicit d
    | FGroup _ _ _ nullable u fs =>
        let children := flat_map (new_field_text fl nm k ds (uctx v u) v) (filter visible fs) in
        if nullable then
          match filter visible fs with
          | _ :: value :: _ =>
              lns k [(0%nat, lit "if " ++ lit v ++ lit " is None:");
                     (4%nat, lit v ++ lit "_is_null = 1");
                     (4%nat, lit v ++ lit "_value = " ++ default_text fl None value);
                     (0%nat, lit "else:");
                     (4%nat, lit v ++ lit "_is_null = 0");
                     (4%nat, lit v ++ lit "_value = " ++ lit v)] ++ children
          | _ => []
          end
        else
          ln k (args_text (map (fun g => lit (varname v (f_name g))) (filter visible fs)) ++ lit ", = " ++ lit v) :: children
    end.
  Lemma new_field_eq k ds union prefix f : new_field_text fl nm k ds union prefix f =
    match f_disc f with
    | Some d =>
        match union with
        | Some (u, off) =>
            ln k (lit "if " ++ lit (varname prefix (f_name f)) ++ lit " is not _undefined:") ::
            ln (k + 4) (lit (curtag u) ++ lit " = _check_tag(" ++ lit (curtag u) ++ lit ", '" ++ lit (f_name f) ++ lit "')") ::
            ln (k + 4) (lit "builder.write_int16(" ++ dec off ++ lit ", " ++ dec d ++ lit ")") ::
            new_body_text (k + 4)%nat ds prefix f
        | None => []
        end
    | None => new_body_text k ds prefix f
    end.
  Proof.
    assert (G : forall k union v fs, (fix go l := match l with
                                     | [] => []
                                     | g :: r => if visible g then new_field_text fl nm k ds union v g ++ go r else go r
                                     end) fs = flat_map (new_field_text fl nm k ds union v) (filter visible fs)).
    { intros k0 un v fs. apply (go_filter_app (new_field_text fl nm k0 ds un v)). }
    destruct f as [n o dc t off ex d|n o dc nl u fs]; cbn [new_field_text new_body_text f_disc f_name].
    - reflexivity.
    - rewrite !G. unfold uctx. reflexivity.
  Qed.

  Lemma corr_fields l ds union prefix :
    (forall g, In g l -> exists ast, corr ast (fun k => new_field_text fl nm k ds union prefix g) (emit_field ds union prefix g) [varname prefix (f_name g)]) ->
    exists ast, corr ast (fun k => flat_map (new_field_text fl nm k ds union prefix) l) (flat_map (emit_field ds union prefix) l) (map (fun g => varname prefix (f_name g)) l).
  Proof.
    induction l as [|g r IH]; intros H; [exists []; apply corr_nil|].
    destruct (H g (or_introl eq_refl)) as (a & A). destruct (IH (fun x Hx => H x (or_intror Hx))) as (b & B).
    exists (a ++ b). cbn [flat_map map]. eapply corr_app; [eapply corr_sub; [exact A|]|exact B|].
    - intros x [<-|[]]. now left.
    - intros v Iv. left. now right.
  Qed.
  Lemma described_fine union prefix f : described w fl nm union prefix f -> fine (f_name f).
  Proof. destruct f; intros (A & B & _); split; assumption. Qed.
  Definition union_of (union : option (string * Z)) : bool := match union with Some _ => true | None => false end.

  Lemma corr_wrap f ds union b prefix ast : described w fl nm b prefix f -> prefix = "" \/ fine prefix ->
    b = union_of union -> match union with Some (u, _) => fine u | None => True end ->
    corr ast (fun k => new_body_text k ds prefix f) (emit_body ds prefix f) [varname prefix (f_name f)] ->
    exists ast, corr ast (fun k => new_field_text fl nm k ds union prefix f) (emit_field ds union prefix f) [varname prefix (f_name f)].
  Proof.
    intros H P Eb Fu C. assert (Fn := described_fine _ _ _ H). assert (Fv := fine_varname prefix _ P Fn).
    assert (Hm : is_member f = true -> b = true) by (destruct f; destruct H as (_ & _ & Hm & _); exact Hm). unfold is_member in Hm.
    rewrite emit_field_eq. destruct (f_disc f) as [dd|] eqn:Ed.
    2:{ exists ast. eapply corr_text; [exact C|]. intros k. rewrite new_field_eq, Ed. reflexivity. }
    destruct union as [[uv uo]|]; [|specialize (Hm eq_refl); subst b; discriminate Hm].
    set (v := varname prefix (f_name f)) in *.
    pose proof (corr_sub _ _ _ _ [v] (corr_tag (curtag uv) (f_name f) (fine_curtag _ Fu) Fn) (incl_nil_l _)) as C1.
    pose proof (corr_sub _ _ _ _ [v] (corr_tagval uo dd) (incl_nil_l _)) as C2.
    pose proof (corr_app _ _ _ _ _ _ _ _ C1 (corr_app _ _ _ _ _ _ _ _ C2 C (fun x Hx => or_introl Hx)) (fun x Hx => or_introl Hx)) as C3.
    eexists. eapply corr_text; [eapply corr_sub; [eapply (corr_ifdef v _ _ _ _ Fv); [|exact C3]; discriminate|intros x [<-|[<-|[]]]; now left]|].
    intros k. rewrite new_field_eq, Ed. reflexivity.
  Qed.

  Lemma corr_body f : forall ds b prefix, described w fl nm b prefix f -> prefix = "" \/ fine prefix ->
    exists ast, corr ast (fun k => new_body_text k ds prefix f) (emit_body ds prefix f) [varname prefix (f_name f)].
  Proof.
    induction f as [n o dc t off ex d|n o dc nl u fs IH] using field_ind'; intros ds b prefix H P.
    all: assert (Fn := described_fine _ _ _ H); assert (Fv := fine_varname prefix _ P Fn).
    - destruct H as (_ & _ & _ & (c & Hr) & Hp). cbn [new_body_text emit_body f_name] in *. eapply corr_slot; eassumption.
    - pose proof (described_all _ _ _ _ _ _ _ _ H) as Ha. cbn [f_name] in *. set (v := varname prefix n) in *.
      assert (Hc : exists ast, corr ast (fun k => flat_map (new_field_text fl nm k ds (uctx v u) v) (filter visible fs)) (flat_map (emit_field ds (uctx v u) v) (filter visible fs))
                     (map (fun g => varname v (f_name g)) (filter visible fs))).
      { apply corr_fields. intros g Ig. rewrite Forall_forall in IH. assert (Ig' := Ig). apply filter_In in Ig'. destruct Ig' as (Ig' & _).
        destruct (IH g Ig' ds _ v (Ha g Ig) (or_intror Fv)) as (ast & C). eapply corr_wrap; [exact (Ha g Ig)|now right| |  |exact C].
        - unfold uctx. destruct u; reflexivity.
        - unfold uctx. destruct u; [exact Fv|exact Logic.I]. }
      destruct Hc as (ast & C). cbn [new_body_text emit_body f_name]. fold v. destruct H as (_ & _ & _ & Hvis & Hn & _). unfold emit_fields. destruct nl.
      + destruct (Hn eq_refl) as (fi & fv & -> & Ni & Nv & Vi & Vv & Fi). cbn [filter] in C, Ha |- *. rewrite Vi, Vv in C, Ha |- *.
        destruct (dflt_ok None fv _ _ (Ha fv (or_intror (or_introl eq_refl)))) as (D1 & D2 & _ & D3).
        pose proof (corr_null v _ _ Fv D2 D3) as C1. rewrite D1 in C1.
        eexists. eapply corr_text; [eapply (corr_app _ _ [_] [v]); [exact C1|exact C|]|intros k; reflexivity].
        intros x Ix. right. cbn [map In] in Ix. rewrite Ni, Nv, !(fine_var v _ (fine_ne _ Fv)) in Ix. destruct Ix as [<-|[<-|[]]]; cbn; tauto.
      + assert (Ne : map (fun g => varname v (f_name g)) (filter visible fs) <> []).
        { intros E. apply map_eq_nil in E. apply existsb_exists in Hvis. destruct Hvis as (g & Ig & Vg). assert (X : In g (filter visible fs)) by (apply filter_In; auto). rewrite E in X. destruct X. }
        assert (Fs : Forall fine (map (fun g => varname v (f_name g)) (filter visible fs))).
        { apply Forall_map, Forall_forall. intros g Ig. apply fine_varname; [now right|]. eapply described_fine, Ha, Ig. }
        pose proof (corr_unpack _ v Fv Ne Fs) as C1. rewrite map_map in C1.
        eexists. eapply corr_text; [eapply (corr_app _ _ [_] [v]); [exact C1|exact C|]|intros k; reflexivity].
        intros x Ix. right. cbn [flat_map assigned]. rewrite app_nil_r, <- (map_map (fun g => varname v (f_name g)) lit). now apply in_map.
  Qed.
  Lemma corr_field f ds union b prefix : described w fl nm b prefix f -> prefix = "" \/ fine prefix ->
    b = union_of union -> match union with Some (u, _) => fine u | None => True end ->
    exists ast, corr ast (fun k => new_field_text fl nm k ds union prefix f) (emit_field ds union prefix f) [varname prefix (f_name f)].
  Proof.
    intros H P Eb Fu. destruct (corr_body f ds b prefix H P) as (ast & C). eapply corr_wrap; eassumption.
  Qed.
End sim.
