(** What the properties that read slots do. *)
From Coq Require Import Strings.String.
From Verif Require FloatBits FloatSpec FloatFacts Names.
From Verif Require Import Base BaseFacts Spec Ptr Segment Builder Copy Struct List CopyList Case CaseFacts Loader Repr PyExpr
  Ctor PySyntax PySyntaxFacts PyPrint PyRun GenRun GenText TextSpec GenTextFacts GenTextRun.
From Coq Require Import Lists.List.
Local Notation length := Datatypes.length.
Local Open Scope string_scope.
Local Open Scope list_scope.
Local Open Scope Z_scope.

Lemma zero_to64 d : 0 <= d < 2 ^ 32 -> float_zero 63 (FloatBits.to64 d) = float_zero 31 d.
Proof.
  intros D. unfold float_zero. destruct (Z.eqb_spec d 0) as [->|N0]; [vm_compute; reflexivity|].
  destruct (Z.eqb_spec d (2 ^ 31)) as [->|N1]; [vm_compute; reflexivity|]. cbn [orb].
  assert (B : FloatSpec.bits FloatBits.single d) by exact D.
  assert (X : forall z y, FloatBits.to64 d = z -> FloatBits.to32 z = y -> ~ FloatSpec.is_nan FloatBits.double z -> d = y).
  { intros z y E1 E2 NN. destruct (Ztrichotomy (FloatBits.body FloatBits.single d) (FloatBits.fi FloatBits.single)) as [H|[H|H]].
    - destruct (FloatFacts.to64_exact d B H) as (_ & _ & _ & E). congruence.
    - destruct (proj1 (FloatFacts.to64_nonfinite d B) H) as (_ & _ & E). congruence.
    - destruct (proj2 (FloatFacts.to64_nonfinite d B) ltac:(unfold FloatSpec.is_nan; lia)) as (E & _). rewrite E1 in E. contradiction. }
  destruct (Z.eqb_spec (FloatBits.to64 d) 0) as [E|_].
  { exfalso. apply N0. apply (X 0 0 E); [vm_compute; reflexivity|]. vm_compute. congruence. }
  destruct (Z.eqb_spec (FloatBits.to64 d) (2 ^ 63)) as [E|_]; [|reflexivity].
  exfalso. apply N1. apply (X (2 ^ 63) (2 ^ 31) E); vm_compute; congruence.
Qed.

Lemma bind_ok {A} (m : res A) : (do x <- m; Ok x) = m. Proof. now destruct m. Qed.

Section getters.
  Context (w : world) (dp : nat) (fl : Z -> str) (c : str) (o : obj).
  Notation R := (rt w dp).
  Hypothesis K : keeps w c.

  Lemma self_local L : existsb (str_eqb (lit "self")) L = true -> local L (set_var (fun _ => None) (lit "self") (XObj c o)) (lit "self") (XObj c o).
  Proof. intros H. split; [exact H|reflexivity]. Qed.

  (** the local names of a body *)
  Definition locals (b : list pstmt) : list str := lit "self" :: flat_map assigned b.
  Lemma ensure_assigned disc : flat_map assigned (ensure_ast disc) = []. Proof. now destruct disc. Qed.

  Lemma call_body disc b s f : f_disc f = disc ->
    call_def R [(lit "self", None)] (ensure_ast disc ++ b) [XObj c o] [] s =
    (do _ <- ensure_union o (w_utag w c) f; finish (run_block R (locals b) b (set_var (fun _ => None) (lit "self") (XObj c o)) s)).
  Proof.
    intros D. rewrite call_self. rewrite flat_map_app, ensure_assigned. cbn [app]. fold (locals b).
    rewrite (run_ensure w dp (locals b) _ c o disc b s f K); [|now apply self_local|exact D].
    destruct (ensure_union o (w_utag w c) f); reflexivity.
  Qed.

  Notation e0 := (set_var (fun _ : str => None) (lit "self") (XObj c o)).
  Lemma ev_ord L e t s : existsb (str_eqb (lit "ord")) L = false -> ev R L e (xApp (V "ord") [xByt [fmt_byte t]] []) s = Ok (XV (PInt (bZ (fmt_byte t))), s).
  Proof.
    intros N. rewrite (ev_call w dp L e _ (XFun (lit "ord")) _ s s [XV (PBytes [fmt_byte t])] s).
    - rewrite rt_call_fun. reflexivity.
    - apply ev_fun; [cbn; tauto|exact N].
    - eapply ev_all_cons; [cbn [ev]; rewrite rt_bytes; reflexivity|reflexivity].
  Qed.

  (** all the types but struct and AnyPointer *)
  Definition plain (t : ftype) : Prop := match t with TStruct | TAny => False | _ => True end.
  Lemma run_body cls enum item nm t off d s c' : plain t -> slot_float w fl t d -> (t = TFloat32 -> 0 <= d < 2 ^ 32) ->
    (t = TEnum -> exists n ce, cls_text n enum /\ keeps w ce /\ forall dp st, ev (rt w dp) [] (fun _ => None) enum st = Ok (XCls ce, st)) ->
    (match t with TList it => exists n, item_text n item /\ forall dp st, ev (rt w dp) [] (fun _ => None) item st = Ok (XItem it, st) | _ => True end) ->
    let b := body_ast fl cls enum item nm t off d in
    finish (run_block R (locals b) b e0 s) = (do v <- read_slot o t off d; Ok (shows o c' v s)).
  Proof.
    intros P F F32 He Hi b. destruct (slot_ast_ok w fl t d F) as (_ & _ & _ & D).
    assert (H : local (locals b) e0 (lit "self") (XObj c o)) by (apply self_local; reflexivity).
    assert (PR : forall (t' : ftype) z, ev_all R (locals b) e0 [num z; xApp (V "ord") [xByt [fmt_byte t']] []] s = Ok ([XV (PInt z); XV (PInt (bZ (fmt_byte t')))], s) \/ existsb (str_eqb (lit "ord")) (locals b) = true).
    { intros t' z. destruct (existsb (str_eqb (lit "ord")) (locals b)) eqn:N; [now right|left].
      eapply ev_all_cons; [apply ev_num|]. eapply ev_all_cons; [now apply ev_ord|reflexivity]. }
    destruct t as [|f| | | | | | | |it|]; try contradiction.
    - (* void *) unfold b. cbn [body_ast]. rewrite rb_return, ev_const. reflexivity.
    - (* ints *) unfold b at 2. cbn [body_ast].
      destruct (PR (TPrim f) (off * ty_size (TPrim f))) as [A|A]; [|discriminate A].
      erewrite (run_value w dp (locals b) e0 _ _ (slot_default (TPrim f) d) (negb (d =? 0)) _ s Z (o_read_primitive o (off * fsize f) f) PInt); [| |apply D| |].
      2:{ reflexivity. }
      2:{ reflexivity. }
      2:{ rewrite (ev_method w dp (locals b) e0 c o "_read_primitive" _ s _ K H ltac:(cbn; tauto) A).
          replace (call_struct w c o (lit "_read_primitive") [XV (PInt (off * ty_size (TPrim f))); XV (PInt (bZ (fmt_byte (TPrim f))))] [])
            with (do v <- o_read_primitive o (off * fsize f) f; Ok (XV (PInt v))) by (destruct f; reflexivity).
          destruct (o_read_primitive o (off * fsize f) f); reflexivity. }
      cbn [read_slot slot_default]. destruct (o_read_primitive o (off * fsize f) f) as [v|]; [|reflexivity]. cbn [bind].
      destruct (d =? 0); cbn [negb py_xor bind]; rewrite rb_return; erewrite ev_local by (split; reflexivity); reflexivity.
    - (* float32 *) unfold b at 2. cbn [body_ast].
      destruct (PR TFloat32 (off * ty_size TFloat32)) as [A|A]; [|discriminate A].
      erewrite (run_value w dp (locals b) e0 _ _ (slot_default TFloat32 d) (negb (float_zero 31 d)) _ s Z (o_read_primitive o (off * 4) FI) (fun v => PFloat (FloatBits.to64 v))); [| |apply D| |].
      2:{ reflexivity. }
      2:{ cbn [slot_default x_cmp x_eq bind]. rewrite zero_to64 by auto. reflexivity. }
      2:{ rewrite (ev_method w dp (locals b) e0 c o "_read_primitive" _ s _ K H ltac:(cbn; tauto) A).
          change (call_struct w c o (lit "_read_primitive") [XV (PInt (off * ty_size TFloat32)); XV (PInt (bZ (fmt_byte TFloat32)))] [])
            with (do v <- o_read_primitive o (off * 4) FI; Ok (XV (PFloat (FloatBits.to64 v)))).
          destruct (o_read_primitive o (off * 4) FI); reflexivity. }
      cbn [read_slot slot_default]. destruct (o_read_primitive o (off * 4) FI) as [v|]; [|reflexivity]. cbn [bind].
      destruct (float_zero 31 d); cbn [negb py_xor bind]; [|reflexivity]. rewrite rb_return; erewrite ev_local by (split; reflexivity); reflexivity.
    - (* float64 *) unfold b at 2. cbn [body_ast].
      destruct (PR TFloat64 (off * ty_size TFloat64)) as [A|A]; [|discriminate A].
      erewrite (run_value w dp (locals b) e0 _ _ (slot_default TFloat64 d) (negb (float_zero 63 d)) _ s Z (o_read_primitive o (off * 8) FQ) PFloat); [| |apply D| |].
      2:{ reflexivity. }
      2:{ reflexivity. }
      2:{ rewrite (ev_method w dp (locals b) e0 c o "_read_primitive" _ s _ K H ltac:(cbn; tauto) A).
          change (call_struct w c o (lit "_read_primitive") [XV (PInt (off * ty_size TFloat64)); XV (PInt (bZ (fmt_byte TFloat64)))] [])
            with (do v <- o_read_primitive o (off * 8) FQ; Ok (XV (PFloat v))).
          destruct (o_read_primitive o (off * 8) FQ); reflexivity. }
      cbn [read_slot slot_default]. destruct (o_read_primitive o (off * 8) FQ) as [v|]; [|reflexivity]. cbn [bind].
      destruct (float_zero 63 d); cbn [negb py_xor bind]; [|reflexivity]. rewrite rb_return; erewrite ev_local by (split; reflexivity); reflexivity.
    - (* bool *) unfold b at 2. cbn [body_ast].
      erewrite (run_value w dp (locals b) e0 _ _ (slot_default TBool d) (negb (d =? 0)) _ s bool (o_read_bit o (off / 8) (Z.shiftl 1 (off mod 8))) PBool); [| |apply D| |].
      2:{ reflexivity. }
      2:{ cbn [slot_default x_cmp x_eq bind]. destruct (d =? 0); reflexivity. }
      2:{ rewrite (ev_method w dp (locals b) e0 c o "_read_bit" _ s [XV (PInt (off / 8)); XV (PInt (Z.shiftl 1 (off mod 8)))] K H ltac:(cbn; tauto)).
          2:{ eapply ev_all_cons; [apply ev_num|]. eapply ev_all_cons; [apply ev_num|reflexivity]. }
          change (call_struct w c o (lit "_read_bit") [XV (PInt (off / 8)); XV (PInt (Z.shiftl 1 (off mod 8)))] [])
            with (do b <- o_read_bit o (off / 8) (Z.shiftl 1 (off mod 8)); Ok (XV (PBool b))).
          destruct (o_read_bit o (off / 8) (Z.shiftl 1 (off mod 8))); reflexivity. }
      cbn [read_slot slot_default]. destruct (o_read_bit o (off / 8) (Z.shiftl 1 (off mod 8))) as [v|]; [|reflexivity]. cbn [bind].
      destruct (d =? 0); cbn [negb py_xor bind]; rewrite rb_return; erewrite ev_local by (split; reflexivity); reflexivity.
    - (* enum *) unfold b at 2. cbn [body_ast]. destruct (He eq_refl) as (en & ce & Hn & Kc & Ev).
      erewrite (run_value w dp (locals b) e0 _ _ (slot_default TEnum d) (negb (d =? 0)) _ s Z (o_read_primitive o (off * 2) Fh) PInt); [| |apply D| |].
      2:{ reflexivity. }
      2:{ reflexivity. }
      2:{ rewrite (ev_method w dp (locals b) e0 c o "_read_int16" _ s [XV (PInt (off * ty_size TEnum))] K H ltac:(cbn; tauto)).
          2:{ eapply ev_all_cons; [apply ev_num|reflexivity]. }
          change (call_struct w c o (lit "_read_int16") [XV (PInt (off * ty_size TEnum))] [])
            with (do v <- o_read_primitive o (off * 2) Fh; Ok (XV (PInt v))).
          destruct (o_read_primitive o (off * 2) Fh); reflexivity. }
      cbn [read_slot slot_default]. destruct (o_read_primitive o (off * 2) Fh) as [v|]; [|reflexivity]. cbn [bind].
      assert (LL : lower (locals b)) by (unfold locals; cbn; repeat (apply Forall_cons; [left; reflexivity|]); apply Forall_nil).
      assert (EN : forall e z, local (locals b) e (lit "value") (XV (PInt z)) -> ev R (locals b) e (meth enum "_new" [V "value"]) s = Ok (XV (PInt z), s)).
      { intros e z Hz. unfold meth. rewrite (ev_call w dp (locals b) e _ (XMeth (XCls ce) (lit "_new")) _ s s [XV (PInt z)] s).
        - now apply rt_enum.
        - rewrite ev_dot, (cls_ev w dp (locals b) e en enum s LL Hn), Ev. cbn [bind]. apply rt_cls_attr; [exact Kc|cbn; tauto].
        - eapply ev_all_cons; [apply (ev_local w dp (locals b) e (lit "value")); exact Hz|reflexivity]. }
      destruct (d =? 0); cbn [negb py_xor bind]; rewrite rb_return; erewrite EN by (split; reflexivity); reflexivity.
    - (* text *) unfold b at 2. cbn [body_ast]. rewrite rb_return.
      rewrite (ev_method w dp (locals b) e0 c o "_read_text_bytes" _ s [XV (PInt (off * ty_size TText))] K H ltac:(cbn; tauto)).
      2:{ eapply ev_all_cons; [apply ev_num|reflexivity]. }
      change (call_struct w c o (lit "_read_text_bytes") [XV (PInt (off * ty_size TText))] []) with (do b <- o_read_data o (off * 8) None (-1); Ok (opt_bytes b)).
      cbn [read_slot]. destruct (o_read_data o (off * 8) None (-1)) as [[x|]|]; reflexivity.
    - unfold b at 2. cbn [body_ast]. rewrite rb_return.
      rewrite (ev_method w dp (locals b) e0 c o "_read_data" _ s [XV (PInt (off * ty_size TData))] K H ltac:(cbn; tauto)).
      2:{ eapply ev_all_cons; [apply ev_num|reflexivity]. }
      change (call_struct w c o (lit "_read_data") [XV (PInt (off * ty_size TData))] []) with (do b <- o_read_data o (off * 8) None 0; Ok (opt_bytes b)).
      cbn [read_slot]. destruct (o_read_data o (off * 8) None 0) as [[x|]|]; reflexivity.
    - (* list *) destruct Hi as (n & Hn & Ev). unfold b at 2. cbn [body_ast]. rewrite rb_return.
      rewrite (ev_method w dp (locals b) e0 c o "_read_list" _ s [XV (PInt (off * ty_size (TList it))); XItem it] K H ltac:(cbn; tauto)).
      2:{ eapply ev_all_cons; [apply ev_num|]. eapply ev_all_cons; [|reflexivity].
          rewrite (item_ev w dp (locals b) e0 n item s); [apply Ev|unfold locals; cbn; repeat (apply Forall_cons; [left; reflexivity|]); apply Forall_nil|exact Hn]. }
      change (call_struct w c o (lit "_read_list") [XV (PInt (off * ty_size (TList it))); XItem it] [])
        with (do l <- o_read_list o (off * 8) it; Ok (match l with None => XV PNone | Some l => XV (PList l) end)).
      cbn [read_slot]. destruct (o_read_list o (off * 8) it) as [[x|]|]; reflexivity.
  Qed.

  (** struct *)
  Lemma set_many2 e (x y : xv) : set_vars e [lit "offset"; lit "p"] [x; y] = Some (set_var (set_var e (lit "offset") x) (lit "p") y).
  Proof. reflexivity. Qed.
  Lemma run_struct cls enum item nm off d s cn c' : cls_text cn cls -> keeps w c' -> (forall dp st, ev (rt w dp) [] (fun _ => None) cls st = Ok (XCls c', st)) ->
    let b := body_ast fl cls enum item nm TStruct off d in
    finish (run_block R (locals b) b e0 s) = (do v <- read_slot o TStruct off d; Ok (shows o c' v s)).
  Proof.
    intros Hn Kc Ev b.
    assert (LL : lower (locals b)) by (unfold locals; cbn; repeat (apply Forall_cons; [left; reflexivity|]); apply Forall_nil).
    unfold b at 2. cbn [body_ast]. unfold set at 1. rewrite rb_set, ev_num. cbn [bind]. set (off' := off * ty_size TStruct).
    set (e1 := set_var e0 (lit "offset") (XV (PInt off'))).
    unfold set at 1. rewrite rb_set.
    rewrite (ev_method w dp (locals b) e1 c o "_read_fast_ptr" _ s [XV (PInt off')] K ltac:(split; reflexivity) ltac:(cbn; tauto)).
    2:{ eapply ev_all_cons; [apply (ev_local w dp (locals b) e1 (lit "offset")); split; reflexivity|reflexivity]. }
    change (call_struct w c o (lit "_read_fast_ptr") [XV (PInt off')] []) with (do p <- o_read_fast_ptr o off'; Ok (XV (PInt p))).
    cbn [read_slot]. unfold o_read_struct, o_resolve. change (off * 8) with off'.
    destruct (o_read_fast_ptr o off') as [p|]; [|reflexivity]. cbn [bind]. set (e2 := set_var e1 (lit "p") (XV (PInt p))).
    rewrite rb_if, ev_cmp.
    assert (EP : forall e st, ev R (locals b) e (V "_ptr") st = Ok (XFun (lit "_ptr"), st)) by (intros; apply ev_fun; [cbn; tauto|reflexivity]).
    replace (ev R (locals b) e2 (meth (V "_ptr") "kind" [V "p"]) s) with (@Ok (xv * st) (XV (PInt (kind p)), s)).
    2:{ symmetry. unfold meth. rewrite (ev_call w dp (locals b) e2 _ (XMeth (XFun (lit "_ptr")) (lit "kind")) _ s s [XV (PInt p)] s).
        - rewrite rt_call_fun_meth. reflexivity.
        - rewrite ev_dot, EP. cbn [bind]. rewrite rt_fun_attr. reflexivity.
        - eapply ev_all_cons; [apply (ev_local w dp (locals b) e2 (lit "p")); split; reflexivity|reflexivity]. }
    cbn [bind]. replace (ev R (locals b) e2 (xDot (V "_ptr") (lit "FAR")) s) with (@Ok (xv * st) (XV (PInt FAR), s)) by (rewrite ev_dot, EP; cbn [bind]; rewrite rt_fun_attr; reflexivity).
    cbn [bind x_cmp x_eq]. rewrite rt_truth. cbn [x_truth bind].
    (* after the pointer has been read *)
    assert (Rest : forall e q p', local (locals b) e (lit "self") (XObj c o) -> local (locals b) e (lit "offset") (XV (PInt q)) -> local (locals b) e (lit "p") (XV (PInt p')) ->
      finish (run_block R (locals b) [qIf (xCmp CEq (V "p") (xNum 0)) [qReturn (xConst CNone)] []; set "obj" (meth cls "__new__" [cls]);
        qExpr (meth (V "obj") "_init_from_pointer" [xDot self (lit "_seg"); V "offset"; V "p"]); qReturn (V "obj")] e s) =
      (do x <- (if p' =? 0 then Ok None else do _ <- py_assert (kind p' =? STRUCT); do o' <- init_from_pointer (o_seg o) q p'; Ok (Some o'));
       Ok (shows o c' (match x with None => GNone | Some o' => GObj o' end) s))).
    { intros e q p' H1 H2 H3. rewrite rb_if, ev_cmp, (ev_local w dp (locals b) e (lit "p") _ s H3). cbn [bind]. rewrite ev_xnum. cbn [bind x_cmp x_eq].
      rewrite rt_truth. cbn [x_truth bind]. destruct (p' =? 0); [rewrite rb_return, ev_const; reflexivity|].
      change (run_block R (locals b) [] e s) with (@Ok (@outcome xv st) (Next e s)). cbn [bind].
      unfold set. rewrite rb_set. unfold meth at 1.
      assert (EC : ev R (locals b) e cls s = Ok (XCls c', s)) by (rewrite (cls_ev w dp (locals b) e cn cls s LL Hn); apply Ev).
      rewrite (ev_call w dp (locals b) e _ (XMeth (XCls c') (lit "__new__")) _ s s [XCls c'] s); [|rewrite ev_dot, EC; cbn [bind]; apply rt_cls_attr; [exact Kc|cbn; tauto]|eapply ev_all_cons; [exact EC|reflexivity]].
      rewrite rt_new by exact Kc. cbn [bind]. set (e' := set_var e (lit "obj") (XNew c')).
      assert (HO : local (locals b) e' (lit "obj") (XNew c')) by (split; reflexivity).
      rewrite rb_expr. unfold meth.
      rewrite (ev_call w dp (locals b) e' _ (XMeth (XNew c') (lit "_init_from_pointer")) _ s s [XSeg (o_seg o); XV (PInt q); XV (PInt p')] s).
      2:{ rewrite ev_dot, (ev_local w dp (locals b) e' (lit "obj") _ s HO). cbn [bind]. apply rt_new_attr. cbn; tauto. }
      2:{ eapply ev_all_cons.
          { rewrite ev_dot, (ev_local w dp (locals b) e' (lit "self") (XObj c o) s H1). cbn [bind]. apply rt_attr_data; [exact K|cbn; tauto|reflexivity]. }
          eapply ev_all_cons; [apply (ev_local w dp (locals b) e' (lit "offset")); exact H2|].
          eapply ev_all_cons; [apply (ev_local w dp (locals b) e' (lit "p")); exact H3|reflexivity]. }
      rewrite rt_new_call. change (call_new (lit "_init_from_pointer") [XSeg (o_seg o); XV (PInt q); XV (PInt p')] s) with
        (do o' <- init_from_pointer (o_seg o) q p'; Ok (XV PNone, mkst (s_buf s) (Some o'))).
      replace (do _ <- py_assert (kind p' =? STRUCT); do o' <- init_from_pointer (o_seg o) q p'; Ok (Some o'))
        with (do o' <- init_from_pointer (o_seg o) q p'; Ok (Some o')) by (unfold init_from_pointer; destruct (kind p' =? STRUCT); reflexivity).
      destruct (init_from_pointer (o_seg o) q p') as [o'|]; [|reflexivity]. cbn [bind]. rewrite rb_return, (ev_local w dp (locals b) e' (lit "obj") _ _ HO). reflexivity. }
    destruct (kind p =? FAR).
    - rewrite rb_many. rewrite (ev_method w dp (locals b) e2 c o "_read_far_ptr" _ s [XV (PInt off')] K ltac:(split; reflexivity) ltac:(cbn; tauto)).
      2:{ eapply ev_all_cons; [apply (ev_local w dp (locals b) e2 (lit "offset")); split; reflexivity|reflexivity]. }
      change (call_struct w c o (lit "_read_far_ptr") [XV (PInt off')] []) with (do (q, p) <- o_read_far_ptr o off'; Ok (XV (PSeq [PInt q; PInt p]))).
      destruct (o_read_far_ptr o off') as [[q p']|]; [|reflexivity]. cbn [bind]. rewrite rt_iter. cbn [x_iter py_iter bind map]. rewrite set_many2.
      change (run_block R (locals b) [] ?e s) with (@Ok (@outcome xv st) (Next e s)). cbn [bind].
      rewrite (Rest _ q p') by (split; reflexivity). destruct (p' =? 0); [reflexivity|]. destruct (py_assert (kind p' =? STRUCT)); [|reflexivity]. cbn [bind]. destruct (init_from_pointer (o_seg o) q p'); reflexivity.
    - rewrite rb_aug. replace (var R (locals b) e2 (lit "offset")) with (@Ok xv (XV (PInt off'))) by reflexivity. cbn [bind].
      rewrite ev_dot, (ev_local w dp (locals b) e2 (lit "self") (XObj c o) s ltac:(split; reflexivity)). cbn [bind].
      rewrite (rt_attr_data w dp c o "_ptrs_offset" (XV (PInt (o_ptrs o))) s K ltac:(cbn; tauto) eq_refl). cbn [bind]. rewrite rt_bin. cbn [x_bin as_pos bind].
      change (run_block R (locals b) [] ?e s) with (@Ok (@outcome xv st) (Next e s)). cbn [bind].
      rewrite (Rest _ (off' + o_ptrs o) p) by (split; reflexivity). destruct (p =? 0); [reflexivity|]. destruct (py_assert (kind p =? STRUCT)); [|reflexivity]. cbn [bind]. destruct (init_from_pointer (o_seg o) _ p); reflexivity.
  Qed.
End getters.

(** ** has_foo *)
Definition has_ast (offset : Z) : list pstmt :=
  [set "ptr" (meth self "_read_fast_ptr" [num offset]); qReturn (xCmp CNe (V "ptr") (xNum 0))].
Lemma has_block k nm offset : ident nm = true -> block k (has_text k nm offset) [qDef None (lit "has_" ++ nm) [(lit "self", None)] (has_ast offset)].
Proof.
  intros N. unfold has_text. rewrite !lns_cons, lns_nil, Nat.add_0_r.
  assert (Nh : name (lit "has_" ++ nm)) by (apply name_under; [reflexivity|vm_compute; tauto|exact N]).
  replace (lit "def has_" ++ nm ++ lit "(self):") with (lit "def " ++ (lit "has_" ++ nm) ++ lit "(self):") by (rewrite <- !app_assoc; reflexivity).
  apply method_block with (body := [_; _]); [exact Nh|discriminate|].
  apply (blk_app (k + 4) [_] [_] [_] [_]); [apply set_block; [nm|wf|shs; reflexivity]|].
  apply ret_block; [wf|]. shs. rewrite sh_num. reflexivity.
Qed.
Lemma has_run w dp c o offset s : keeps w c ->
  call_def (rt w dp) [(lit "self", None)] (has_ast offset) [XObj c o] [] s = (do p <- o_read_fast_ptr o offset; Ok (XV (PBool (negb (p =? 0))), s)).
Proof.
  intros K. rewrite call_self. set (L := lit "self" :: flat_map assigned (has_ast offset)). set (e0 := set_var _ (lit "self") (XObj c o)).
  unfold has_ast, set. rewrite rb_set.
  rewrite (ev_method w dp L e0 c o "_read_fast_ptr" _ s [XV (PInt offset)] K ltac:(split; reflexivity) ltac:(cbn; tauto)) by (eapply ev_all_cons; [apply ev_num|reflexivity]).
  change (call_struct w c o (lit "_read_fast_ptr") [XV (PInt offset)] []) with (do p <- o_read_fast_ptr o offset; Ok (XV (PInt p))).
  destruct (o_read_fast_ptr o offset) as [p|]; [|reflexivity]. cbn [bind]. rewrite rb_return, ev_cmp. erewrite ev_local by (split; reflexivity). cbn [bind]. rewrite ev_xnum. reflexivity.
Qed.

(** methods of the class *)
Lemma rt_attr_def w d c o n s ps b : last_def (w_body w c) n = Some (None, ps, b) -> r_attr (rt w d) (XObj c o) n s = Ok (XMeth (XObj c o) n, s).
Proof. intros E. destruct d; cbn [rt r_attr]; rewrite E; reflexivity. Qed.
Lemma rt_call_def w d c o n s ps b dd args kws : last_def (w_body w c) n = Some (dd, ps, b) ->
  r_call (rt w (S d)) (XMeth (XObj c o) n) args kws s = call_def (rt w d) ps b (XObj c o :: args) kws s.
Proof. intros E. cbn [rt r_call]. rewrite E. reflexivity. Qed.
Lemma rt_attr_property w d c o n s ps b : last_def (w_body w c) n = Some (Some (lit "property"), ps, b) ->
  r_attr (rt w (S d)) (XObj c o) n s = call_def (rt w d) ps b [XObj c o] [] s.
Proof. intros E. cbn [rt r_attr]. rewrite E. reflexivity. Qed.
Lemma ev_mymethod w d L e c o n s ps b : local L e (lit "self") (XObj c o) -> last_def (w_body w c) n = Some (None, ps, b) ->
  ev (rt w (S d)) L e (xApp (xDot self n) [] []) s = call_def (rt w d) ps b [XObj c o] [] s.
Proof.
  intros H E. rewrite (ev_call w (S d) L e _ (XMeth (XObj c o) n) [] s s [] s).
  - rewrite (rt_call_def w d c o n s ps b None [] [] E). reflexivity.
  - rewrite ev_dot, (ev_local w (S d) L e (lit "self") (XObj c o) s H). cbn [bind]. apply (rt_attr_def w (S d) c o n s ps b E).
  - reflexivity.
Qed.

Section getters2.
  Context (w : world) (dp : nat) (fl : Z -> str) (c : str) (o : obj).
  Hypothesis K : keeps w c.
  Notation e0 := (set_var (fun _ : str => None) (lit "self") (XObj c o)).

  Lemma run_any cls enum item nm off d s c' : last_def (w_body w c) (lit "has_" ++ nm) = Some (None, [(lit "self", None)], has_ast (off * 8)) ->
    let b := body_ast fl cls enum item nm TAny off d in
    finish (run_block (rt w (S dp)) (locals b) b e0 s) = (do v <- read_slot o TAny off d; Ok (shows o c' v s)).
  Proof.
    intros E b. unfold b at 2. cbn [body_ast]. rewrite rb_if.
    assert (H : local (locals b) e0 (lit "self") (XObj c o)) by (split; reflexivity).
    replace (ev (rt w (S dp)) (locals b) e0 (xNot (xApp (xDot self (lit "has_" ++ nm)) [] [])) s) with
      (do p <- o_read_fast_ptr o (off * 8); @Ok (xv * st) (XV (PBool (p =? 0)), s)).
    2:{ change (ev (rt w (S dp)) (locals b) e0 (xNot (xApp (xDot self (lit "has_" ++ nm)) [] [])) s) with
          (do (v, s) <- ev (rt w (S dp)) (locals b) e0 (xApp (xDot self (lit "has_" ++ nm)) [] []) s; do c <- r_truth (rt w (S dp)) v; Ok (r_bool (rt w (S dp)) (negb c), s)).
        rewrite (ev_mymethod w dp _ _ c o (lit "has_" ++ nm) s _ _ H E), has_run by exact K.
        destruct (o_read_fast_ptr o (off * 8)) as [p|]; [|reflexivity]. cbn [bind]. rewrite rt_truth. cbn [x_truth bind]. now rewrite rt_bool, negb_involutive. }
    cbn [read_slot]. unfold has_slot. destruct (o_read_fast_ptr o (off * 8)) as [p|]; [|reflexivity]. cbn [bind]. rewrite rt_truth. cbn [x_truth bind].
    destruct (p =? 0); cbn [negb]; [rewrite rb_return, ev_const; reflexivity|].
    change (run_block (rt w (S dp)) (locals b) [] ?e s) with (@Ok (@outcome xv st) (Next e s)). cbn [bind].
    rewrite rb_return, (ev_call w (S dp) _ _ _ (XFun (lit "_AnyPointer")) _ s s [XObj c o; XV (PInt (off * ty_size TAny))] s).
    - rewrite rt_call_fun. reflexivity.
    - apply ev_fun; [cbn; tauto|reflexivity].
    - eapply ev_all_cons; [apply ev_local; exact H|]. eapply ev_all_cons; [apply ev_num|reflexivity].
  Qed.

  (** everything the property of a slot needs *)
  Record slot_ok (nms : names) (nm : str) (t : ftype) (off d : Z) (cls enum item : pexp) (c' : str) : Prop := mkso {
    so_float : slot_float w fl t d;
    so_range : t = TFloat32 -> 0 <= d < 2 ^ 32;
    so_enum : t = TEnum -> cls_text (n_enum nms) enum /\ exists ce, keeps w ce /\ forall dp st, ev (rt w dp) [] (fun _ => None) enum st = Ok (XCls ce, st);
    so_item : match t with TList it => item_text (n_item nms) item /\ forall dp st, ev (rt w dp) [] (fun _ => None) item st = Ok (XItem it, st) | _ => True end;
    so_cls : t = TStruct -> cls_text (n_cls nms) cls /\ keeps w c' /\ forall dp st, ev (rt w dp) [] (fun _ => None) cls st = Ok (XCls c', st);
    so_has : t = TAny -> last_def (w_body w c) (lit "has_" ++ nm) = Some (None, [(lit "self", None)], has_ast (off * 8)) }.
  Lemma run_getter nms nm t off d cls enum item c' n order disc explicit s : slot_ok nms nm t off d cls enum item c' ->
    call_def (rt w (S dp)) [(lit "self", None)] (ensure_ast disc ++ body_ast fl cls enum item nm t off d) [XObj c o] [] s =
    (do v <- get_slot o (w_utag w c) (FSlot n order disc t off explicit d); Ok (shows o c' v s)).
  Proof.
    intros [F Fr He Hi Hc Hh]. rewrite (call_body w (S dp) c o K disc _ s (FSlot n order disc t off explicit d) eq_refl). cbn [get_slot].
    destruct (ensure_union o (w_utag w c) (FSlot n order disc t off explicit d)); [|reflexivity]. cbn [bind].
    assert (D : plain t \/ t = TStruct \/ t = TAny) by (destruct t; cbn; auto).
    destruct D as [D|[-> | ->]].
    - apply run_body; auto.
      + intros T. destruct (He T) as (A & ce & B & C). exists (n_enum nms), ce. auto.
      + destruct t; auto. exists (n_item nms). exact Hi.
    - destruct (Hc eq_refl) as (A & B & C). eapply run_struct; eauto.
    - apply run_any. now apply Hh.
  Qed.
End getters2.
