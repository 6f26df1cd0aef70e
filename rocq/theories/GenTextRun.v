(** What the properties and methods of GenTextFacts.v do. *)
From Coq Require Import Strings.String.
From Verif Require FloatBits Names.
From Verif Require Import Base BaseFacts Spec Ptr Segment Builder Copy Struct List CopyList Case CaseFacts Loader Repr PyExpr
  Ctor PySyntax PySyntaxFacts PyPrint PyRun GenRun GenText TextSpec GenTextFacts.
From Coq Require Import Lists.List.
Local Notation length := Datatypes.length.
Local Open Scope string_scope.
Local Open Scope list_scope.
Local Open Scope Z_scope.

(** ** The runtime *)
Definition reader (n : string) : bool := existsb (String.eqb n) struct_methods.
Lemma among_in n l : In n l -> among (lit n) l = true.
Proof. intros I. apply existsb_exists. exists n. split; [exact I|]. unfold is. apply str_eqb_refl. Qed.
Lemma rt_attr_method w d c o n s : keeps w c -> In n struct_methods -> r_attr (rt w d) (XObj c o) (lit n) s = Ok (XMeth (XObj c o) (lit n), s).
Proof.
  intros K I. assert (E : last_def (w_body w c) (lit n) = None) by (apply K; apply in_or_app; now left).
  destruct d; cbn [rt r_attr]; rewrite E; rewrite (among_in n _ I);
    (replace (struct_attr o (lit n)) with (@None xv); [reflexivity|]); cbn in I; repeat (destruct I as [<-|I]; [reflexivity|]); destruct I.
Qed.
Lemma rt_call_method w d c o n args kws s : keeps w c -> In n struct_methods ->
  r_call (rt w d) (XMeth (XObj c o) (lit n)) args kws s = (do x <- call_struct w c o (lit n) args kws; Ok (x, s)).
Proof.
  intros K I. assert (E : last_def (w_body w c) (lit n) = None) by (apply K; apply in_or_app; now left).
  destruct d; cbn [rt r_call]; rewrite E; reflexivity.
Qed.
Lemma rt_attr_data w d c o n x s : keeps w c -> In n ["_seg"; "_data_offset"; "_ptrs_offset"; "_data_size"; "_ptrs_size"] -> struct_attr o (lit n) = Some x ->
  r_attr (rt w d) (XObj c o) (lit n) s = Ok (x, s).
Proof.
  intros K I A. assert (E : last_def (w_body w c) (lit n) = None).
  { apply K. unfold runtime_names. apply in_or_app. right. cbn in I |- *. tauto. }
  destruct d; cbn [rt r_attr]; rewrite E, A; reflexivity.
Qed.
Lemma rt_global w d n : In n functions -> r_global (rt w d) (lit n) = Ok (XFun (lit n)).
Proof. intros I. destruct d; cbn [rt r_global]; rewrite (among_in n _ I); reflexivity. Qed.
Lemma rt_undefined w d : r_global (rt w d) (lit "_undefined") = Ok (XV PUndef).
Proof. destruct d; reflexivity. Qed.
Lemma rt_call_fun w d n args s : r_call (rt w d) (XFun n) args [] s = call_fun n args s.
Proof. destruct d; reflexivity. Qed.
Lemma rt_call_fun_meth w d f n args s : r_call (rt w d) (XMeth (XFun f) n) args [] s = call_fun_meth f n args s.
Proof. destruct d; reflexivity. Qed.
Lemma rt_fun_attr w d f n s : r_attr (rt w d) (XFun f) n s = match fun_attr f n with Some x => Ok (x, s) | None => Err AttributeError end.
Proof. destruct d; reflexivity. Qed.
Lemma rt_new_attr w d c n s : In n ["_init_from_buffer"; "_init_from_pointer"] -> r_attr (rt w d) (XNew c) (lit n) s = Ok (XMeth (XNew c) (lit n), s).
Proof. intros I. destruct d; cbn [rt r_attr]; rewrite (among_in n _ I); reflexivity. Qed.
Lemma rt_new_call w d c n args s : r_call (rt w d) (XMeth (XNew c) n) args [] s = call_new n args s.
Proof. destruct d; reflexivity. Qed.
Lemma rt_cls_attr w d c n s : keeps w c -> In n ["__new__"; "from_buffer"; "_new"] -> r_attr (rt w d) (XCls c) (lit n) s = Ok (XMeth (XCls c) (lit n), s).
Proof.
  intros K I. assert (E : last_def (w_body w c) (lit n) = None).
  { apply K. unfold runtime_names. apply in_or_app. right. cbn in I |- *. tauto. }
  destruct d; cbn [rt r_attr]; rewrite E, (among_in n _ I); reflexivity.
Qed.
Lemma rt_new w d c c' s : keeps w c -> r_call (rt w d) (XMeth (XCls c) (lit "__new__")) [XCls c'] [] s = Ok (XNew c', s).
Proof.
  intros K. assert (E : last_def (w_body w c) (lit "__new__") = None).
  { apply K. unfold runtime_names. apply in_or_app. right. cbn. tauto. }
  destruct d; cbn [rt r_call]; rewrite E; reflexivity.
Qed.
Lemma rt_enum w d c z s : keeps w c -> r_call (rt w d) (XMeth (XCls c) (lit "_new")) [XV (PInt z)] [] s = Ok (XV (PInt z), s).
Proof.
  intros K. assert (E : last_def (w_body w c) (lit "_new") = None).
  { apply K. unfold runtime_names. apply in_or_app. right. cbn. tauto. }
  destruct d; cbn [rt r_call]; rewrite E; reflexivity.
Qed.
Lemma rt_from_buffer w d c args kws s : keeps w c -> r_call (rt w d) (XMeth (XCls c) (lit "from_buffer")) args kws s = (do x <- call_from_buffer c args kws; Ok (x, s)).
Proof.
  intros K. assert (E : last_def (w_body w c) (lit "from_buffer") = None).
  { apply K. unfold runtime_names. apply in_or_app. right. cbn. tauto. }
  destruct d; cbn [rt r_call]; rewrite E; reflexivity.
Qed.

(** ** Evaluating *)
Section eval.
  Variables (w : world) (dp : nat) (L : list str) (e : @vars xv) (c : str) (o : obj).
  Notation R := (rt w dp).
  Definition local (n : str) (v : xv) : Prop := existsb (str_eqb n) L = true /\ e n = Some v.
  Lemma ev_local n v s : local n v -> ev R L e (xVar n) s = Ok (v, s).
  Proof. intros (A & B). cbn [ev]. unfold var. rewrite A, B. reflexivity. Qed.
  Lemma ev_self s : local (lit "self") (XObj c o) -> ev R L e self s = Ok (XObj c o, s).
  Proof. apply ev_local. Qed.
  Lemma ev_fun n s : In n functions -> existsb (str_eqb (lit n)) L = false -> ev R L e (V n) s = Ok (XFun (lit n), s).
  Proof. intros I N. cbn [ev]. unfold var. rewrite N, rt_global by exact I. reflexivity. Qed.

  (** calls *)
  Lemma ev_call f g args s s1 vs s2 : ev R L e f s = Ok (g, s1) -> ev_all R L e args s1 = Ok (vs, s2) -> ev R L e (xApp f args []) s = r_call R g vs [] s2.
  Proof.
    intros F A. cbn [ev]. rewrite F. cbn [bind].
    assert (X : forall l s, (fix all (l : list pexp) (s : st) : res (list xv * st) :=
       match l with [] => Ok ([], s) | a :: r => do (v, s) <- ev R L e a s; do (vs, s) <- all r s; Ok (v :: vs, s) end) l s = ev_all R L e l s).
    { clear. induction l as [|a l IH]; intros s; [reflexivity|]. cbn [ev_all]. destruct (ev R L e a s) as [[v s']|]; [|reflexivity]. cbn [bind]. rewrite IH. reflexivity. }
    rewrite X, A. reflexivity.
  Qed.
  Lemma ev_all_nil s : ev_all R L e [] s = Ok ([], s). Proof. reflexivity. Qed.
  Lemma ev_all_cons a l s v s1 vs s2 : ev R L e a s = Ok (v, s1) -> ev_all R L e l s1 = Ok (vs, s2) -> ev_all R L e (a :: l) s = Ok (v :: vs, s2).
  Proof. intros A B. cbn [ev_all]. rewrite A. cbn [bind]. rewrite B. reflexivity. Qed.
  Lemma ev_method m args s vs : keeps w c -> local (lit "self") (XObj c o) -> In m struct_methods -> ev_all R L e args s = Ok (vs, s) ->
    ev R L e (meth self m args) s = (do x <- call_struct w c o (lit m) vs []; Ok (x, s)).
  Proof.
    intros K H I A. unfold meth. rewrite (ev_call _ (XMeth (XObj c o) (lit m)) args s s vs s); [now apply rt_call_method| |exact A].
    cbn [ev]. rewrite (ev_self s H : (do v <- var R L e (lit "self"); Ok (v, s)) = _). cbn [bind]. now apply rt_attr_method.
  Qed.
End eval.

(** ** Running *)
Section running.
  Context (w : world) (dp : nat).
  Notation R := (rt w dp).
  Definition finish (x : res (@outcome xv st)) : res (xv * st) :=
    do x <- x; match x with Return v s => Ok (v, s) | Next _ s => Ok (XV PNone, s) end.

  Lemma rb_cons L q r e s : run_block R L (q :: r) e s = (do o <- run_stmt R L q e s; match o with Next e s => run_block R L r e s | Return _ _ => Ok o end).
  Proof. reflexivity. Qed.
  Lemma inner_block L : forall l e s, (fix block (l : list pstmt) (e : vars) (s : st) {struct l} : res outcome :=
      match l with [] => Ok (Next e s) | q :: r => do o <- run_stmt R L q e s; match o with Next e s => block r e s | Return _ _ => Ok o end end) l e s
    = run_block R L l e s.
  Proof.
    induction l as [|q l IH]; intros e s; [reflexivity|]. rewrite rb_cons. destruct (run_stmt R L q e s) as [[e' s'|v s']|]; cbn [bind]; [apply IH|reflexivity|reflexivity].
  Qed.
  Lemma rb_set L n x r e s : run_block R L (qSet (tOne n) x :: r) e s = (do (v, s) <- ev R L e x s; run_block R L r (set_var e n v) s).
  Proof. rewrite rb_cons. cbn [run_stmt]. destruct (ev R L e x s) as [[v s1]|]; reflexivity. Qed.
  Lemma rb_many L ns x r e s : run_block R L (qSet (tMany ns) x :: r) e s =
    (do (v, s) <- ev R L e x s; do vs <- r_iter R v; match set_vars e ns vs with Some e => run_block R L r e s | None => Err ValueError end).
  Proof. rewrite rb_cons. cbn [run_stmt]. destruct (ev R L e x s) as [[v s1]|]; [|reflexivity]. cbn [bind]. destruct (r_iter R v) as [vs|]; [|reflexivity]. cbn [bind]. destruct (set_vars e ns vs); reflexivity. Qed.
  Lemma rb_aug L n o x r e s : run_block R L (qAug n o x :: r) e s =
    (do v <- var R L e n; do (y, s) <- ev R L e x s; do v <- r_bin R o v y; run_block R L r (set_var e n v) s).
  Proof. rewrite rb_cons. cbn [run_stmt]. destruct (var R L e n); [|reflexivity]. cbn [bind]. destruct (ev R L e x s) as [[v s1]|]; [|reflexivity]. cbn [bind]. destruct (r_bin R o _ v); reflexivity. Qed.
  Lemma rb_expr L x r e s : run_block R L (qExpr x :: r) e s = (do (_, s) <- ev R L e x s; run_block R L r e s).
  Proof. rewrite rb_cons. cbn [run_stmt]. destruct (ev R L e x s) as [[v s1]|]; reflexivity. Qed.
  Lemma rb_return L x r e s : run_block R L (qReturn x :: r) e s = (do (v, s) <- ev R L e x s; Ok (Return v s)).
  Proof. rewrite rb_cons. cbn [run_stmt]. destruct (ev R L e x s) as [[v s1]|]; reflexivity. Qed.
  Lemma rb_raise L x r e s : run_block R L (qRaise x :: r) e s = (do (v, s) <- ev R L e x s; Err (r_raise R v)).
  Proof. rewrite rb_cons. cbn [run_stmt]. destruct (ev R L e x s) as [[v s1]|]; reflexivity. Qed.
  Lemma rb_if L x a b r e s : run_block R L (qIf x a b :: r) e s =
    (do (v, s) <- ev R L e x s; do c <- r_truth R v; do o <- run_block R L (if c then a else b) e s;
     match o with Next e s => run_block R L r e s | Return _ _ => Ok o end).
  Proof.
    rewrite rb_cons. cbn [run_stmt]. destruct (ev R L e x s) as [[v s1]|]; [|reflexivity]. cbn [bind]. destruct (r_truth R v) as [c|]; [|reflexivity]. cbn [bind].
    destruct c; rewrite inner_block; reflexivity.
  Qed.
  Lemma rb_app L a b e s : run_block R L (a ++ b) e s = (do o <- run_block R L a e s; match o with Next e s => run_block R L b e s | Return _ _ => Ok o end).
  Proof.
    revert e s. induction a as [|q a IH]; intros e s; [reflexivity|]. cbn [app]. rewrite !rb_cons.
    destruct (run_stmt R L q e s) as [[e' s'|v s']|]; cbn [bind]; [apply IH|reflexivity|reflexivity].
  Qed.
  Lemma call_self body v s : call_def R [(lit "self", None)] body [v] [] s =
    finish (run_block R (lit "self" :: flat_map assigned body) body (set_var (fun _ => None) (lit "self") v) s).
  Proof. destruct dp; reflexivity. Qed.
  Lemma rt_const c : r_const R c = match c with CNone => XV PNone | CTrue => XV (PBool true) | CFalse => XV (PBool false) end.
  Proof. destruct dp; reflexivity. Qed.
  Lemma rt_truth : r_truth R = x_truth. Proof. destruct dp; reflexivity. Qed.
  Lemma rt_cmp : r_cmp R = x_cmp. Proof. destruct dp; reflexivity. Qed.
  Lemma rt_bin : r_bin R = x_bin. Proof. destruct dp; reflexivity. Qed.
  Lemma rt_bool b : r_bool R b = XV (PBool b). Proof. destruct dp; reflexivity. Qed.
  Lemma rt_int z : r_int R z = XV (PInt z). Proof. destruct dp; reflexivity. Qed.
  Lemma rt_bytes z : r_bytes R z = XV (PBytes z). Proof. destruct dp; reflexivity. Qed.
  Lemma rt_iter : r_iter R = x_iter. Proof. destruct dp; reflexivity. Qed.
  Lemma ev_cmp L e op a b s : ev R L e (xCmp op a b) s = (do (x, s) <- ev R L e a s; do (y, s) <- ev R L e b s; do c <- x_cmp op x y; Ok (XV (PBool c), s)).
  Proof. destruct dp; reflexivity. Qed.
  Lemma ev_bin L e op a b s : ev R L e (xBin op a b) s = (do (x, s) <- ev R L e a s; do (y, s) <- ev R L e b s; do c <- x_bin op x y; Ok (c, s)).
  Proof. destruct dp; reflexivity. Qed.
  Lemma ev_const L e c s : ev R L e (xConst c) s = Ok (match c with CNone => XV PNone | CTrue => XV (PBool true) | CFalse => XV (PBool false) end, s).
  Proof. cbn [ev]. now rewrite rt_const. Qed.
  Lemma ev_xnum L e z s : ev R L e (xNum z) s = Ok (XV (PInt z), s).
  Proof. cbn [ev]. now rewrite rt_int. Qed.
  Lemma ev_dot L e a n s : ev R L e (xDot a n) s = (do (v, s) <- ev R L e a s; r_attr R v n s).
  Proof. reflexivity. Qed.

  (** *** the discriminant *)
  Lemma run_ensure L e c o disc b s f : keeps w c -> local L e (lit "self") (XObj c o) -> f_disc f = disc ->
    run_block R L (ensure_ast disc ++ b) e s = (do _ <- ensure_union o (w_utag w c) f; run_block R L b e s).
  Proof.
    intros K H D. unfold ensure_union. rewrite D. destruct disc as [d|]; [|reflexivity]. cbn [ensure_ast app]. rewrite rb_expr.
    rewrite (ev_method w dp L e c o "_ensure_union" [num d] s [XV (PInt d)] K H) by (first [cbn; tauto|cbn [ev_all]; rewrite ev_num; reflexivity]).
    change (call_struct w c o (lit "_ensure_union") [XV (PInt d)] []) with
      (match w_utag w c with Some u => do _ <- o_ensure_union o (u * 2) d; Ok (XV PNone) | None => Err TypeError end).
    destruct (w_utag w c) as [u|]; [|reflexivity]. destruct (o_ensure_union o (u * 2) d); reflexivity.
  Qed.

  (** *** value = ...; if default != 0: value = value ^ default *)
  Lemma run_value L e x dflt d z r s A (m : res A) (inj : A -> pyval) : existsb (str_eqb (lit "value")) L = true ->
    (forall e s, ev R L e dflt s = Ok (XV d, s)) -> x_cmp CNe (XV d) (XV (PInt 0)) = Ok z ->
    ev R L e x s = (do v <- m; Ok (XV (inj v), s)) ->
    run_block R L (set "value" x :: xor_ast dflt :: r) e s =
    (do v <- m; do u <- (if z then py_xor (inj v) d else Ok (inj v));
     run_block R L r (if z then set_var (set_var e (lit "value") (XV (inj v))) (lit "value") (XV u) else set_var e (lit "value") (XV u)) s).
  Proof.
    intros I D C X. unfold set at 1. rewrite rb_set, X. destruct m as [v|]; [|reflexivity]. cbn [bind]. unfold xor_ast. rewrite rb_if, ev_cmp, D. cbn [bind].
    rewrite ev_xnum. cbn [bind]. rewrite C. cbn [bind]. rewrite rt_truth. cbn [x_truth bind].
    destruct z; [|reflexivity]. unfold set. rewrite rb_set, ev_bin.
    rewrite (ev_local w dp L _ (lit "value") (XV (inj v)) s) by (split; [exact I|reflexivity]). cbn [bind]. rewrite D. cbn [bind].
    unfold x_bin. destruct (py_xor (inj v) d); reflexivity.
  Qed.
End running.
