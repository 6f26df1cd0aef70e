(** C84: the method shortrepr() of a generated class, as text: it is read as
    Python, and what it returns is what the model of Repr.v says. *)
From Coq Require Import Strings.String.
From Verif Require PyExprFacts GenRun.
From Verif Require Import Base BaseFacts Spec Ptr Segment Builder Copy Struct List CopyList Case CaseFacts Enum Utf8 Loader Ctor Repr PyExpr
  PySyntax PySyntaxFacts PyPrint PyRun GenText TextSpec GenTextFacts ClassFacts ReprText ReprRun ReprTextFacts.
From Coq Require Import Lists.List.
Local Notation length := Datatypes.length.
Local Open Scope string_scope.
Local Open Scope list_scope.
Local Open Scope Z_scope.

(** ** Reading *)
Theorem C84_reads k fs : Forall shown_field fs ->
  exists body, reads_as k (repr_text k fs) [qDef None (lit "shortrepr") [(lit "self", None)] body].
Proof. intros F. exists (repr_ast fs). eapply blk_reads, repr_block, F. Qed.
Print Assumptions C84_reads.

(** ** obj.shortrepr() *)

(** The classes [cls], whose bodies are [body], are generated for the schema
    [S]: the fields are those of the schema, under Python names; the definition
    of shortrepr that counts is the one in the generated text; no two
    accessors of a class have the same name, none is called shortrepr, and
    there is no is__x for a nullable member x of a union (there is none in
    what the compiler writes unless another field is called _x). *)
Record printed (S : schema) (cls : nat -> list nfield) (body : nat -> list pstmt) : Prop := mkprinted {
  pr_fields : forall c, map nf_field (cls c) = rc_fields (S c);
  pr_names : forall c f, In f (cls c) -> py_name (nf_name f) /\ ident (rf_cap (nf_field f)) = true;
  pr_text : forall c, exists k l, reads_as k (repr_text k (cls c)) l /\
    GenRun.last_def (body c) (lit "shortrepr") = GenRun.last_def l (lit "shortrepr");
  pr_distinct : forall c, NoDup (map fst (all_accessors cls c));
  pr_shortrepr : forall c, ~ In (lit "shortrepr") (map fst (all_accessors cls c));
  pr_nullable : forall c f, In f (cls c) -> is_nullable (nf_field f) = true -> ~ In (lit "is__" ++ nf_name f) (map fst (all_accessors cls c)) }.

Lemma pointer_is S f : pointer f = is_ptr S (nf_field f).
Proof. unfold pointer, is_ptr. destruct (rf_kind (nf_field f)) as [[]|]; reflexivity. Qed.
Lemma find_app {A} (p : A -> bool) a b : find p (a ++ b) = match find p a with Some x => Some x | None => find p b end.
Proof. induction a as [|x a IH]; [reflexivity|]. cbn [app find]. destruct (p x); [reflexivity|exact IH]. Qed.
Lemma find_one {A} (l : list (str * A)) n x : NoDup (map fst l) -> In (n, x) l -> find (fun p => str_eqb (fst p) n) (rev l) = Some (n, x).
Proof.
  intros D I. induction l as [|[m y] l IH]; [destruct I|]. cbn [map fst] in D. inversion D as [|? ? N D']; subst. cbn [rev]. rewrite find_app. destruct I as [E|I].
  - injection E as -> ->. destruct (find _ (rev l)) as [p|] eqn:F.
    + apply find_some in F. destruct F as (F & E). apply str_eqb_spec in E. apply in_rev in F. exfalso. apply N. rewrite <- E. now apply in_map.
    + cbn [find fst]. now rewrite str_eqb_refl.
  - rewrite (IH D' I). reflexivity.
Qed.
Lemma find_not {A} (l : list (str * A)) n : ~ In n (map fst l) -> find (fun p => str_eqb (fst p) n) (rev l) = None.
Proof.
  intros N. destruct (find _ (rev l)) as [p|] eqn:F; [|reflexivity]. apply find_some in F. destruct F as (F & E). apply str_eqb_spec in E. apply in_rev in F.
  exfalso. apply N. rewrite <- E. now apply in_map.
Qed.

Lemma iter_ext f g l n i : (forall x, f x = g x) -> iter_repr f l n i = iter_repr g l n i.
Proof.
  intros E. revert i. induction n as [|n IH]; intros i; [reflexivity|]. cbn [iter_repr]. destruct (l_getitem l i) as [x|]; [|reflexivity]. rewrite E, IH. reflexivity.
Qed.
Lemma list_ext f g l : (forall x, f x = g x) -> list_repr f l = list_repr g l.
Proof. intros E. unfold list_repr. now rewrite (iter_ext f g). Qed.
Lemma item_ext fp r1 r2 t : (forall c o, r1 c o = r2 c o) -> forall x, item_repr fp r1 t x = item_repr fp r2 t x.
Proof.
  intros E. induction t; intros x; destruct x; try reflexivity; cbn [item_repr]; [apply E|]. now apply list_ext.
Qed.

Lemma percent_cap s v : ident s = true -> percent (s ++ lit " = %s") v = Some (s ++ lit " = " ++ v).
Proof.
  intros I. assert (F : forall c, In c s -> c <> 37).
  { apply ident_chars in I. rewrite forallb_forall in I. intros c Hc. apply I in Hc. intros ->. discriminate Hc. }
  clear I. induction s as [|c s IH].
  - cbn [app]. change (percent (lit " = %s") v) with (Some (lit " = " ++ v ++ [])). now rewrite app_nil_r.
  - cbn [app percent]. replace (c =? 37) with false by (symmetry; apply Z.eqb_neq, F; now left). rewrite IH by (intros d Hd; apply F; now right). reflexivity.
Qed.

Section run.
Variable fp : floats.
Variable Sc : schema.
Variable cls : nat -> list nfield.
Variable body : nat -> list pstmt.
Hypothesis P : printed Sc cls body.
Notation R := (rr fp Sc cls body).

Definition show (d : nat) (c : nat) (o : obj) : res str :=
  match d with
  | O => Err OutOfFuel
  | Datatypes.S d =>
      match GenRun.last_def (body c) (lit "shortrepr") with
      | Some (None, ps, b) => do (v, _) <- call_def (R d) ps b [VObj c o] [] []; text_of v
      | _ => outside
      end
  end.
Lemma call_show d c o h : r_call (R d) (VMeth (VObj c o) (lit "shortrepr")) [] [] h = do s <- show d c o; Ok (VStr s, h).
Proof. destruct d; reflexivity. Qed.
Lemma call_list d t l h : r_call (R d) (VMeth (VLst t l) (lit "shortrepr")) [] [] h = do s <- list_repr (item_repr fp (show d) t) l; Ok (VStr s, h).
Proof. destruct d; reflexivity. Qed.
Lemma call_function d n x h : r_call (R d) (VFun n) [x] [] h = do s <- call_fun fp n x; Ok (VStr s, h).
Proof. destruct d; reflexivity. Qed.
Lemma call_lower d s h : r_call (R d) (VMeth (VStr s) (lit "lower")) [] [] h = Ok (VStr (ReprRun.lower s), h).
Proof. destruct d; reflexivity. Qed.
Lemma call_append d s ps : r_call (R d) (VMeth (VParts 0) (lit "append")) [VStr s] [] [ps] = Ok (VNone, [ps ++ [s]]).
Proof. destruct d; reflexivity. Qed.
Lemma call_join d s ps : r_call (R d) (VMeth (VStr s) (lit "join")) [VParts 0] [] [ps] = Ok (VStr (join_with s ps), [ps]).
Proof. destruct d; reflexivity. Qed.
Lemma glob d n : In n ReprRun.functions -> r_global (R d) (lit n) = Ok (VFun (lit n)).
Proof.
  intros I. assert (E : existsb (ReprRun.is (lit n)) ReprRun.functions = true) by (apply existsb_exists; exists n; split; [exact I|apply str_eqb_refl]).
  destruct d; cbn [rr r_global]; rewrite E; reflexivity.
Qed.
Lemma attr_shortrepr d c o h : r_attr (R d) (VObj c o) (lit "shortrepr") h = Ok (VMeth (VObj c o) (lit "shortrepr"), h).
Proof. destruct d; reflexivity. Qed.
Lemma attr_list d t l h : r_attr (R d) (VLst t l) (lit "shortrepr") h = Ok (VMeth (VLst t l) (lit "shortrepr"), h).
Proof. destruct d; reflexivity. Qed.
Lemma attr_obj d c o n h : n <> lit "shortrepr" -> r_attr (R d) (VObj c o) n h =
  match accessor_of cls c n with
  | Some (AProp, f) => do x <- prop Sc (rc_utag (Sc c)) o f; Ok (x, h)
  | Some _ => Ok (VMeth (VObj c o) n, h)
  | None => Err AttributeError
  end.
Proof.
  intros N. assert (E : ReprRun.is n "shortrepr" = false) by (unfold ReprRun.is; destruct (str_eqb n (lit "shortrepr")) eqn:E; [apply str_eqb_spec in E; contradiction|reflexivity]).
  destruct d; cbn [rr r_attr]; rewrite E; reflexivity.
Qed.
Lemma call_obj d c o n h : n <> lit "shortrepr" -> r_call (R d) (VMeth (VObj c o) n) [] [] h =
  match accessor_of cls c n with
  | Some (a, f) => do x <- call_accessor Sc (rc_utag (Sc c)) o a f; Ok (x, h)
  | None => outside
  end.
Proof.
  intros N. assert (E : ReprRun.is n "shortrepr" = false) by (unfold ReprRun.is; destruct (str_eqb n (lit "shortrepr")) eqn:E; [apply str_eqb_spec in E; contradiction|reflexivity]).
  destruct d; cbn [rr r_call]; rewrite E; reflexivity.
Qed.

Lemma accessor_in c f n a : In f (cls c) -> In (n, (a, f)) (accessors f) -> n <> lit "shortrepr" /\ accessor_of cls c n = Some (a, f).
Proof.
  intros I J. assert (K : In (n, (a, f)) (all_accessors cls c)) by (unfold all_accessors; apply in_flat_map; exists f; auto). split.
  - intros ->. apply (pr_shortrepr _ _ _ P c). apply in_map with (f := fst) in K. exact K.
  - unfold accessor_of. rewrite (find_one _ _ _ (pr_distinct _ _ _ P c) K). reflexivity.
Qed.

Definition L : list str := [lit "self"; lit "parts"].
Variable c : nat.
Variable o : obj.
Variable d : nat.
Variable e : vars (V := rv).
Hypothesis Es : e (lit "self") = Some (VObj c o).
Hypothesis Ep : e (lit "parts") = Some (VParts 0).
Notation u := (rc_utag (Sc c)).

Lemma ev_self h : ev (R d) L e (xVar (lit "self")) h = Ok (VObj c o, h).
Proof. cbn [ev]. unfold var. change (existsb (str_eqb (lit "self")) L) with true. cbn iota. rewrite Es. reflexivity. Qed.
Lemma ev_parts h : ev (R d) L e (xVar (lit "parts")) h = Ok (VParts 0, h).
Proof. cbn [ev]. unfold var. change (existsb (str_eqb (lit "parts")) L) with true. cbn iota. rewrite Ep. reflexivity. Qed.
Lemma ev_glob n h : In n ReprRun.functions -> ev (R d) L e (xVar (lit n)) h = Ok (VFun (lit n), h).
Proof.
  intros I. cbn [ev]. unfold var. assert (E : existsb (str_eqb (lit n)) L = false) by (cbn in I; repeat (destruct I as [<-|I]; [reflexivity|]); destruct I).
  rewrite E, (glob d n I). reflexivity.
Qed.
Lemma ev_meth a n h : ev (R d) L e (call0 a n) h = do (v, s) <- ev (R d) L e a h; do (m, s) <- r_attr (R d) v n s; r_call (R d) m [] [] s.
Proof. unfold call0. cbn [ev]. destruct (ev (R d) L e a h) as [[v s]|]; [|reflexivity]. cbn [bind]. destruct (r_attr (R d) v n s) as [[m s']|]; reflexivity. Qed.
Lemma ev_fun n a h : In n ReprRun.functions -> ev (R d) L e (xApp (xVar (lit n)) [a] []) h = do (v, s) <- ev (R d) L e a h; do t <- call_fun fp (lit n) v; Ok (VStr t, s).
Proof.
  intros I. transitivity (do (g, s) <- ev (R d) L e (xVar (lit n)) h; do (v, s) <- ev (R d) L e a s; r_call (R d) g [v] [] s).
  { cbn [ev]. destruct (var (R d) L e (lit n)) as [g|]; [|reflexivity]. cbn [bind]. destruct (ev (R d) L e a h) as [[v s]|]; reflexivity. }
  rewrite (ev_glob n h I). cbn [bind]. destruct (ev (R d) L e a h) as [[v s]|]; [|reflexivity]. cbn [bind]. apply call_function.
Qed.
Lemma ev_prop f h : In f (cls c) -> ev (R d) L e (xDot (xVar (lit "self")) (shown_name f)) h = do x <- prop Sc u o f; Ok (x, h).
Proof.
  intros I. transitivity (do (v, s) <- ev (R d) L e (xVar (lit "self")) h; r_attr (R d) v (shown_name f) s); [reflexivity|]. rewrite ev_self. cbn [bind].
  destruct (accessor_in c f (shown_name f) AProp I) as (N & A).
  { unfold shown_name, accessors. left. destruct (is_nullable (nf_field f)); reflexivity. }
  rewrite (attr_obj d c o _ h N), A. reflexivity.
Qed.
Lemma ev_accessor f n a h : In f (cls c) -> In (n, (a, f)) (accessors f) -> a <> AProp ->
  ev (R d) L e (call0 (xVar (lit "self")) n) h = do x <- call_accessor Sc u o a f; Ok (x, h).
Proof.
  intros I J Na. destruct (accessor_in c f n a I J) as (N & A). rewrite ev_meth, ev_self. cbn [bind]. rewrite (attr_obj d c o n h N), A.
  assert (X : forall (Z : res (rv * heap)), (do (m, s) <- match a with AProp => Z | _ => Ok (VMeth (VObj c o) n, h) end; r_call (R d) m [] [] s) = r_call (R d) (VMeth (VObj c o) n) [] [] h) by (destruct a; [contradiction|reflexivity|reflexivity|reflexivity]).
  rewrite X, (call_obj d c o n h N), A. reflexivity.
Qed.

(** the value *)
Hypothesis IH : forall c o, show d c o = shortrepr d fp Sc c o.
Lemma plain_name f : is_nullable (nf_field f) = false -> shown_name f = nf_name f.
Proof. unfold shown_name. intros ->. reflexivity. Qed.
Lemma get_in f : pointer f = true -> In (lit "get_" ++ shown_name f, (AGet, f)) (accessors f) /\ In (lit "has_" ++ shown_name f, (AHas, f)) (accessors f).
Proof.
  intros Pt. assert (N : is_nullable (nf_field f) = false) by (unfold pointer, is_nullable in *; destruct (rf_kind (nf_field f)); [reflexivity|discriminate Pt]).
  rewrite (plain_name f N). unfold accessors. rewrite Pt. split; right; apply in_or_app; left; cbn; tauto.
Qed.
Lemma ev_value f h : In f (cls c) ->
  (do (v, s) <- ev (R d) L e (value_ast f) h; do t <- str_of v; Ok (t, s)) = (do t <- field_value fp Sc (shortrepr d fp Sc) u o (nf_field f); Ok (t, h)).
Proof.
  intros I. unfold value_ast, field_value.
  destruct (rf_kind (nf_field f)) as [t off df|c' nl] eqn:K.
  2:{ rewrite ev_meth, (ev_prop f h I). unfold prop. rewrite K. destruct (get_group o u (slot_of Sc (nf_field f))) as [g|]; [|reflexivity]. cbn [bind].
      rewrite attr_shortrepr. cbn [bind]. rewrite call_show, IH. destruct (shortrepr d fp Sc c' g); reflexivity. }
  assert (Pt : pointer f = rty_pointer t) by (unfold pointer; rewrite K; reflexivity).
  assert (Nn : is_nullable (nf_field f) = false) by (unfold is_nullable; rewrite K; reflexivity).
  destruct t as [| |fm| | |cn ms caps|un| |c'|t'|]; cbn [rty_pointer] in Pt; cbn [ty_pointer ftype_of].
  - destruct d; reflexivity.
  - rewrite ev_meth, (ev_fun "str") by (cbn; tauto). rewrite (ev_prop f h I). unfold prop. rewrite K.
    destruct (get_slot o u (slot_of Sc (nf_field f))) as [g|]; [|reflexivity]. cbn [bind]. destruct g as [|z|b|z|z|b|g|l|z]; try reflexivity.
    destruct b; destruct d; reflexivity.
  - rewrite (ev_prop f h I). unfold prop. rewrite K. destruct (get_slot o u (slot_of Sc (nf_field f))) as [g|]; [|reflexivity]. cbn [bind]. destruct g as [|z|b|z|z|b|g|l|z]; reflexivity.
  - rewrite (ev_fun "_float32_repr") by (cbn; tauto). rewrite (ev_prop f h I). unfold prop. rewrite K.
    destruct (get_slot o u (slot_of Sc (nf_field f))) as [g|]; [|reflexivity]. cbn [bind]. destruct g as [|z|b|z|z|b|g|l|z]; reflexivity.
  - rewrite (ev_fun "_float64_repr") by (cbn; tauto). rewrite (ev_prop f h I). unfold prop. rewrite K.
    destruct (get_slot o u (slot_of Sc (nf_field f))) as [g|]; [|reflexivity]. cbn [bind]. destruct g as [|z|b|z|z|b|g|l|z]; reflexivity.
  - rewrite (ev_prop f h I). unfold prop. rewrite K. destruct (get_slot o u (slot_of Sc (nf_field f))) as [g|]; [|reflexivity]. cbn [bind].
    destruct g as [|z|b|z|z|b|g|l|z]; try reflexivity; cbn [value_of bind str_of]; destruct (enum_str ms z); reflexivity.
  - destruct (get_in f Pt) as (J & _). destruct un.
    + rewrite (ev_fun "_text_unicode_repr") by (cbn; tauto). rewrite (ev_accessor f _ AGet h I J) by discriminate. cbn [call_accessor]. rewrite K.
      destruct (get_method o u (slot_of Sc (nf_field f))) as [g|]; [|reflexivity]. cbn [bind]. destruct g as [|z|b|z|z|b|g|l|z]; try reflexivity.
      cbn [value_of]. unfold text_bytes_repr, decode_maybe. destruct (utf8_decode b); reflexivity.
    + rewrite (ev_fun "_text_bytes_repr") by (cbn; tauto). rewrite (ev_accessor f _ AGet h I J) by discriminate. cbn [call_accessor]. rewrite K.
      destruct (get_method o u (slot_of Sc (nf_field f))) as [g|]; [|reflexivity]. cbn [bind]. destruct g as [|z|b|z|z|b|g|l|z]; try reflexivity.
      cbn [value_of bind]. change (call_fun fp (lit "_text_bytes_repr") (VBytes b)) with (text_bytes_repr (Some b)). destruct (text_bytes_repr (Some b)); reflexivity.
  - destruct (get_in f Pt) as (J & _). rewrite (ev_fun "_data_repr") by (cbn; tauto). rewrite (ev_accessor f _ AGet h I J) by discriminate. cbn [call_accessor]. rewrite K.
    destruct (get_method o u (slot_of Sc (nf_field f))) as [g|]; [|reflexivity]. cbn [bind]. destruct g as [|z|b|z|z|b|g|l|z]; reflexivity.
  - destruct (get_in f Pt) as (J & _). rewrite ev_meth, (ev_accessor f _ AGet h I J) by discriminate. cbn [call_accessor]. rewrite K.
    destruct (get_method o u (slot_of Sc (nf_field f))) as [g|]; [|reflexivity]. cbn [bind]. destruct g as [|z|b|z|z|b|g|l|z]; try reflexivity.
    cbn [value_of bind]. rewrite attr_shortrepr. cbn [bind]. rewrite call_show, IH. destruct (shortrepr d fp Sc c' g); reflexivity.
  - destruct (get_in f Pt) as (J & _). rewrite ev_meth, (ev_accessor f _ AGet h I J) by discriminate. cbn [call_accessor]. rewrite K.
    destruct (get_method o u (slot_of Sc (nf_field f))) as [g|]; [|reflexivity]. cbn [bind]. destruct g as [|z|b|z|z|b|g|l|z]; try reflexivity.
    cbn [value_of bind]. rewrite attr_list. cbn [bind]. rewrite call_list.
    rewrite (list_ext _ _ l (item_ext fp (show d) (shortrepr d fp Sc) t' IH)). destruct (list_repr _ l); reflexivity.
  - destruct d; reflexivity.
Qed.

(** a part of the text *)
Lemma ev_append f ps : In f (cls c) ->
  (do (_, s) <- ev (R d) L e (append_ast f) [ps]; Ok s) = (do t <- field_value fp Sc (shortrepr d fp Sc) u o (nf_field f); Ok [ps ++ [rf_cap (nf_field f) ++ lit " = " ++ t]]).
Proof.
  intros I. transitivity (do (v, s) <- (do (w, s) <- ev (R d) L e (value_ast f) [ps]; do v <- r_bin (R d) BMod (r_str (R d) (rf_cap (nf_field f) ++ lit " = %s")) w; Ok (v, s));
    do (_, s) <- r_call (R d) (VMeth (VParts 0) (lit "append")) [v] [] s; Ok s).
  { unfold append_ast, meth.
    transitivity (do (_, s) <- (do (v, s) <- ev (R d) L e (xVar (lit "parts")) [ps]; do (g, s) <- r_attr (R d) v (lit "append") s;
      do (vs, s) <- (do (v, s) <- (do (w, s) <- ev (R d) L e (value_ast f) s; do v <- r_bin (R d) BMod (r_str (R d) (rf_cap (nf_field f) ++ lit " = %s")) w; Ok (v, s)); Ok ([v], s));
      r_call (R d) g vs [] s); Ok s).
    - cbn [ev]. destruct (var (R d) L e (lit "parts")) as [v|]; [|reflexivity]. cbn [bind]. destruct (r_attr (R d) v (lit "append") [ps]) as [[g s]|]; [|reflexivity]. cbn [bind].
      destruct (ev (R d) L e (value_ast f) s) as [[w s1]|]; [|reflexivity]. cbn [bind]. destruct (r_bin (R d) BMod _ w) as [x|]; reflexivity.
    - rewrite ev_parts. cbn [bind]. replace (r_attr (R d) (VParts 0) (lit "append") [ps]) with (@Ok (rv * heap) (VMeth (VParts 0) (lit "append"), [ps])) by (destruct d; reflexivity).
      cbn [bind]. destruct (ev (R d) L e (value_ast f) [ps]) as [[w s1]|]; [|reflexivity]. cbn [bind]. destruct (r_bin (R d) BMod _ w) as [x|]; reflexivity. }
  pose proof (ev_value f [ps] I) as E. destruct (ev (R d) L e (value_ast f) [ps]) as [[w s]|x].
  - cbn [bind] in E |- *. replace (r_bin (R d) BMod (r_str (R d) (rf_cap (nf_field f) ++ lit " = %s")) w)
      with (do t <- str_of w; match percent (rf_cap (nf_field f) ++ lit " = %s") t with Some x => Ok (VStr x) | None => Err TypeError end) by (destruct d; reflexivity).
    destruct (str_of w) as [t|x]; cbn [bind] in E |- *.
    + destruct (field_value fp Sc (shortrepr d fp Sc) u o (nf_field f)) as [t'|x]; [|discriminate E]. cbn [bind] in E |- *.
      assert (E1 : t = t' /\ s = [ps]) by (apply ok_inj in E; injection E as -> ->; auto). destruct E1 as (-> & ->).
      rewrite percent_cap by (apply (pr_names _ _ _ P c f I)). cbn [bind]. rewrite call_append. reflexivity.
    + destruct (field_value fp Sc (shortrepr d fp Sc) u o (nf_field f)) as [t'|y]; [discriminate E|]. cbn [bind] in E |- *. injection E as ->. reflexivity.
  - cbn [bind] in E |- *. destruct (field_value fp Sc (shortrepr d fp Sc) u o (nf_field f)) as [t'|y]; [discriminate E|]. cbn [bind] in E |- *. injection E as ->. reflexivity.
Qed.
Lemma run_append f ps : In f (cls c) ->
  run_stmt (R d) L (qExpr (append_ast f)) e [ps] = (do t <- field_value fp Sc (shortrepr d fp Sc) u o (nf_field f); Ok (Next e [ps ++ [rf_cap (nf_field f) ++ lit " = " ++ t]])).
Proof.
  intros I. pose proof (ev_append f ps I) as E. cbn [run_stmt]. destruct (ev (R d) L e (append_ast f) [ps]) as [[v s]|x]; cbn [bind] in E |- *;
    destruct (field_value fp Sc (shortrepr d fp Sc) u o (nf_field f)) as [t|y]; cbn [bind] in E |- *; try discriminate E.
  - apply ok_inj in E. subst s. reflexivity.
  - injection E as ->. reflexivity.
Qed.
Lemma run_if x f ps b : In f (cls c) -> (do (v, s) <- ev (R d) L e x [ps]; do c <- r_truth (R d) v; Ok (c, s)) = (do c <- b; Ok (c, [ps])) ->
  run_stmt (R d) L (qIf x [qExpr (append_ast f)] []) e [ps] =
  (do c <- b; if c : bool then do t <- field_value fp Sc (shortrepr d fp Sc) u o (nf_field f); Ok (Next e [ps ++ [rf_cap (nf_field f) ++ lit " = " ++ t]]) else Ok (Next e [ps])).
Proof.
  intros I E.
  transitivity (do (c, s) <- (do (v, s) <- ev (R d) L e x [ps]; do c <- r_truth (R d) v; Ok (c, s));
    if c then do o <- run_stmt (R d) L (qExpr (append_ast f)) e s; match o with Next e s => Ok (Next e s) | Return _ _ => Ok o end else Ok (Next e s)).
  { cbn [run_stmt]. destruct (ev (R d) L e x [ps]) as [[v s]|]; [|reflexivity]. cbn [bind]. destruct (r_truth (R d) v) as [[]|]; reflexivity. }
  rewrite E. destruct b as [[]|y]; try reflexivity. cbn [bind]. rewrite (run_append f ps I). destruct (field_value fp Sc (shortrepr d fp Sc) u o (nf_field f)); reflexivity.
Qed.
Lemma truth b : r_truth (R d) (VBool b) = Ok b.
Proof. destruct d; reflexivity. Qed.
Lemma ev_and a b h : ev (R d) L e (xBool OAnd a b) h = (do (v, s) <- ev (R d) L e a h; do c <- r_truth (R d) v; if c then ev (R d) L e b s else Ok (v, s)).
Proof. reflexivity. Qed.
Lemma ev_or a b h : ev (R d) L e (xBool OOr a b) h = (do (v, s) <- ev (R d) L e a h; do c <- r_truth (R d) v; if c then Ok (v, s) else ev (R d) L e b s).
Proof. cbn [ev]. destruct (ev (R d) L e a h) as [[v s]|]; [|reflexivity]. cbn [bind]. destruct (r_truth (R d) v) as [[]|]; reflexivity. Qed.
Lemma ev_not_const b h : ev (R d) L e (xNot (xConst (if b : bool then CTrue else CFalse))) h = Ok (VBool (negb b), h).
Proof. destruct b, d; reflexivity. Qed.

Lemma ev_is f n h : In f (cls c) -> is_nullable (nf_field f) = false -> rf_disc (nf_field f) = Some n ->
  ev (R d) L e (call0 (xVar (lit "self")) (lit "is_" ++ shown_name f)) h = (do w <- which o u; Ok (VBool (w =? n), h)).
Proof.
  intros I N D. rewrite (ev_accessor f _ AIs h I); [|rewrite (plain_name f N); unfold accessors; rewrite D; right; apply in_or_app; right; now left|discriminate].
  cbn [call_accessor]. rewrite D. destruct (which o u); reflexivity.
Qed.
Lemma ev_has f h : In f (cls c) -> pointer f = true ->
  ev (R d) L e (call0 (xVar (lit "self")) (lit "has_" ++ shown_name f)) h = (do w <- has_slot o (slot_index (nf_field f)); Ok (VBool w, h)).
Proof.
  intros I Pt. rewrite (ev_accessor f _ AHas h I); [|apply get_in, Pt|discriminate]. cbn [call_accessor]. destruct (has_slot _ _); reflexivity.
Qed.
Lemma pointer_plain f : pointer f = true -> is_nullable (nf_field f) = false.
Proof. unfold pointer, is_nullable. destruct (rf_kind (nf_field f)); [reflexivity|discriminate]. Qed.
Lemma run_part f ps : In f (cls c) ->
  run_stmt (R d) L (part_ast f) e [ps] = (do l <- field_part fp Sc (shortrepr d fp Sc) u o (nf_field f); Ok (Next e [ps ++ l])).
Proof.
  intros I. unfold part_ast, cond_ast, field_part. rewrite <- (pointer_is Sc f). set (X := field_value fp Sc (shortrepr d fp Sc) u o (nf_field f)).
  destruct (rf_disc (nf_field f)) as [n|] eqn:D, (pointer f) eqn:Pt.
  - pose proof (pointer_plain f Pt) as N. rewrite N.
    rewrite (run_if _ f ps (do w <- which o u; if w =? n then do h <- has_slot o (slot_index (nf_field f)); Ok (h || negb (n =? 0)) else Ok false) I).
    + fold X. destruct (which o u) as [w|]; [|reflexivity]. cbn [bind]. destruct (w =? n); cbn [negb]; [|cbn [bind]; now rewrite app_nil_r].
      destruct (has_slot o (slot_index (nf_field f))) as [h|]; [|reflexivity]. cbn [bind]. destruct (h || negb (n =? 0)); [|cbn [bind]; now rewrite app_nil_r].
      destruct X; reflexivity.
    + rewrite ev_and, (ev_is f n _ I N D). destruct (which o u) as [w|]; [|reflexivity]. cbn [bind]. rewrite truth. cbn [bind]. destruct (w =? n).
      * rewrite ev_or, (ev_has f _ I Pt). destruct (has_slot o (slot_index (nf_field f))) as [h|]; [|reflexivity]. cbn [bind]. rewrite truth. cbn [bind]. destruct h.
        { cbn [bind]. now rewrite truth. }
        rewrite (ev_not_const (n =? 0)). cbn [bind]. rewrite truth. reflexivity.
      * cbn [bind]. rewrite truth. reflexivity.
  - destruct (is_nullable (nf_field f)) eqn:N.
    + assert (E : ev (R d) L e (call0 (xVar (lit "self")) (lit "is_" ++ shown_name f)) [ps] = Err AttributeError).
      { rewrite ev_meth, ev_self. cbn [bind]. unfold shown_name. rewrite N. change (lit "is_" ++ lit "_" ++ nf_name f) with (lit "is__" ++ nf_name f).
        rewrite attr_obj by (intros E; vm_compute in E; discriminate E). unfold accessor_of. rewrite (find_not _ _ (pr_nullable _ _ _ P c f I N)). reflexivity. }
      cbn [run_stmt]. rewrite E. reflexivity.
    + rewrite (run_if _ f ps (do w <- which o u; Ok (w =? n)) I).
      * fold X. destruct (which o u) as [w|]; [|reflexivity]. cbn [bind]. destruct (w =? n); cbn [negb]; [|cbn [bind]; now rewrite app_nil_r]. destruct X; reflexivity.
      * rewrite (ev_is f n _ I N D). destruct (which o u) as [w|]; [|reflexivity]. cbn [bind]. rewrite truth. reflexivity.
  - rewrite (run_if _ f ps (has_slot o (slot_index (nf_field f))) I).
    + fold X. destruct (has_slot o (slot_index (nf_field f))) as [h|]; [|reflexivity]. cbn [bind]. destruct h; [|cbn [bind]; now rewrite app_nil_r]. destruct X; reflexivity.
    + rewrite (ev_has f _ I Pt). destruct (has_slot o (slot_index (nf_field f))) as [h|]; [|reflexivity]. cbn [bind]. rewrite truth. reflexivity.
  - rewrite (run_append f ps I). fold X. destruct X; reflexivity.
Qed.
Lemma run_parts fs ps : (forall f, In f fs -> In f (cls c)) ->
  run_block (R d) L (map part_ast fs) e [ps] = (do l <- Repr.parts (field_part fp Sc (shortrepr d fp Sc) u o) (map nf_field fs); Ok (Next e [ps ++ l])).
Proof.
  revert ps. induction fs as [|f fs IHf]; intros ps I; [cbn; now rewrite app_nil_r|]. cbn [map run_block Repr.parts].
  rewrite (run_part f ps (I f (or_introl eq_refl))). destruct (field_part fp Sc (shortrepr d fp Sc) u o (nf_field f)) as [a|]; [|reflexivity]. cbn [bind].
  rewrite IHf by (intros g G; apply I; now right). destruct (Repr.parts _ _) as [b|]; [|reflexivity]. cbn [bind]. now rewrite app_assoc.
Qed.
End run.

Lemma assigned_parts fs : flat_map assigned (map part_ast fs) = [].
Proof. induction fs as [|f fs IH]; [reflexivity|]. cbn [map flat_map]. rewrite IH. unfold part_ast. destruct (cond_ast f); reflexivity. Qed.

Lemma show_is fp S cls body : printed S cls body -> forall n c o, show fp S cls body n c o = shortrepr n fp S c o.
Proof.
  intros P. induction n as [|d IH]; intros c o; [reflexivity|]. cbn [show shortrepr].
  assert (F : Forall shown_field (cls c)) by (apply Forall_forall; intros f; apply (pr_names _ _ _ P c)).
  destruct (pr_text _ _ _ P c) as (k & l & Rd & E). rewrite (reads_unique _ _ _ _ Rd (blk_reads _ _ _ (repr_block k _ F))) in E. rewrite E.
  change (GenRun.last_def _ _) with (Some (@None str, [(lit "self", @None pexp)], repr_ast (cls c))). cbn iota beta.
  assert (A : lit "self" :: flat_map assigned (repr_ast (cls c)) = L).
  { unfold repr_ast. cbn [flat_map assigned set app]. rewrite flat_map_app, assigned_parts. reflexivity. }
  transitivity (do (v, _) <- (do x <- run_block (rr fp S cls body d) (lit "self" :: flat_map assigned (repr_ast (cls c))) (repr_ast (cls c)) (set_var (fun _ => None) (lit "self") (VObj c o)) [];
    match x with Return v s => Ok (v, s) | Next _ s => Ok (r_const (rr fp S cls body d) CNone, s) end); text_of v).
  { destruct d; reflexivity. }
  rewrite A. unfold repr_ast, set. set (e0 := set_var _ _ _).
  change (run_block (rr fp S cls body d) L (qSet (tOne (lit "parts")) xNil :: ?r) e0 []) with (do x <- run_stmt (rr fp S cls body d) L (qSet (tOne (lit "parts")) xNil) e0 []; match x with Next e s => run_block (rr fp S cls body d) L r e s | Return _ _ => Ok x end).
  replace (run_stmt (rr fp S cls body d) L (qSet (tOne (lit "parts")) xNil) e0 []) with (@Ok (outcome (V := rv) (S := heap)) (Next (set_var e0 (lit "parts") (VParts 0)) [[]])) by (destruct d; reflexivity).
  cbn [bind]. set (e := set_var e0 _ _).
  assert (Ap : forall a b h, run_block (rr fp S cls body d) L (a ++ b) e h = (do x <- run_block (rr fp S cls body d) L a e h; match x with Next e s => run_block (rr fp S cls body d) L b e s | Return _ _ => Ok x end)).
  { generalize e. clear. intros e1 a. revert e1. induction a as [|q a IHa]; intros e1 b h; [reflexivity|]. cbn [app run_block]. destruct (run_stmt _ _ q e1 h) as [[e2 s2|v s2]|]; cbn [bind]; [apply IHa|reflexivity|reflexivity]. }
  rewrite Ap, (run_parts fp S cls body P c o d e eq_refl eq_refl IH (cls c) [] (fun f H => H)), (pr_fields _ _ _ P c).
  destruct (Repr.parts _ _) as [ps|]; [|reflexivity]. cbn [bind app].
  transitivity (do (v, _) <- (do x <- (do (v, s) <- ev (rr fp S cls body d) L e (xBin BMod (xStr (lit "(%s)")) (meth (xStr (lit ", ")) "join" [xVar (lit "parts")])) [ps]; Ok (Return v s));
    match x with Return v s => Ok (v, s) | Next _ s => Ok (r_const (rr fp S cls body d) CNone, s) end); text_of v).
  { cbn [run_block run_stmt]. destruct (ev _ _ _ _ _) as [[v s]|]; reflexivity. }
  assert (Ev : ev (rr fp S cls body d) L e (xBin BMod (xStr (lit "(%s)")) (meth (xStr (lit ", ")) "join" [xVar (lit "parts")])) [ps] = Ok (VStr ([40] ++ join_with comma ps ++ [41]), [ps])).
  { destruct d; reflexivity. }
  rewrite Ev. reflexivity.
Qed.

(** Running the text: for every object, of every class, with the depth of the
    calls as fuel: the text or the exception of [shortrepr]. *)
Theorem C84_shortrepr fp S cls body : printed S cls body -> forall n c o,
  shows fp S cls body n c o = (do t <- shortrepr n fp S c o; Ok (VStr t)).
Proof.
  intros P n c o. unfold shows. rewrite call_show, (show_is fp S cls body P). destruct (shortrepr n fp S c o); reflexivity.
Qed.
Print Assumptions C84_shortrepr.
