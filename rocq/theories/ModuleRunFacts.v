(** Lemmas about PyModuleRun.v *)
From Coq Require Import Strings.String.
From Verif Require Import Base BaseFacts Spec Case CaseFacts Loader List PyExpr PySyntax PySyntaxFacts PyModule PyModuleRun ClassFacts.
From Coq Require Import Lists.List.
Local Notation length := Datatypes.length.
Local Open Scope string_scope.
Local Open Scope list_scope.
Local Open Scope Z_scope.

(** ** Namespaces *)
Definition keys (g : env) : list str := map fst g.
Lemma get_app a b n : get (a ++ b) n = match get a n with Some v => Some v | None => get b n end.
Proof. induction a as [|[x v] a IH]; [reflexivity|]. cbn [app get]. destruct (str_eqb x n); [reflexivity|exact IH]. Qed.
Lemma get_none g n : ~ In n (keys g) -> get g n = None.
Proof.
  induction g as [|[x v] g IH]; intros N; [reflexivity|]. cbn [get]. destruct (str_eqb x n) eqn:E.
  - apply str_eqb_spec in E. subst. exfalso. apply N. now left.
  - apply IH. intros I. apply N. now right.
Qed.
Lemma get_in g n v : NoDup (keys g) -> In (n, v) g -> get g n = Some v.
Proof.
  induction g as [|[x u] g IH]; intros N I; [destruct I|]. cbn [get]. inversion N as [|? ? Nx N']; subst. destruct I as [E|I].
  - injection E as -> ->. now rewrite str_eqb_refl.
  - destruct (str_eqb x n) eqn:E; [|now apply IH]. apply str_eqb_spec in E. subst. exfalso. apply Nx. apply in_map_iff. exists (n, v). split; [reflexivity|exact I].
Qed.
Lemma get_new a b n : ~ In n (keys a) -> get (a ++ b) n = get b n.
Proof. intros N. now rewrite get_app, get_none. Qed.
Lemma keys_app a b : keys (a ++ b) = keys a ++ keys b. Proof. apply map_app. Qed.
Lemma keys_rev a : keys (rev a) = rev (keys a). Proof. apply map_rev. Qed.

(** ** Classes *)
Lemma change_same {A} (f : A -> A) l : forall i x, nth_error l i = Some x -> nth_error (change_nth f i l) i = Some (f x).
Proof. induction l as [|y l IH]; intros [|i] x H; try discriminate H; cbn in *; [now injection H as ->|now apply IH]. Qed.
Lemma change_other {A} (f : A -> A) l : forall i j, i <> j -> nth_error (change_nth f i l) j = nth_error l j.
Proof. induction l as [|y l IH]; intros [|i] [|j] N; try reflexivity; [contradiction|]. cbn. apply IH. congruence. Qed.
Lemma change_length {A} (f : A -> A) l : forall i, length (change_nth f i l) = length l.
Proof. induction l as [|y l IH]; intros [|i]; try reflexivity. cbn. now rewrite IH. Qed.
Lemma change_end {A} (f : A -> A) l x : change_nth f (length l) (l ++ [x]) = l ++ [f x].
Proof. induction l as [|y l IH]; [reflexivity|]. cbn. now rewrite IH. Qed.
Lemma nth_end {A} (l : list A) x : nth_error (l ++ [x]) (length l) = Some x.
Proof. rewrite nth_error_app2 by lia. now rewrite Nat.sub_diag. Qed.

(** ** Running *)
Lemma exec_app v a b st : exec v (a ++ b) st = do st <- exec v a st; exec v b st.
Proof.
  revert st. induction a as [|s a IH]; intros st; [reflexivity|]. cbn [app exec]. destruct (exec_item v s st); [apply IH|reflexivity].
Qed.
Lemma body_app g a b loc : class_body g loc (a ++ b) = do loc <- class_body g loc a; class_body g loc b.
Proof.
  revert loc. induction a as [|s a IH]; intros loc; [reflexivity|]. cbn [app class_body]. destruct (class_step g loc s); [apply IH|reflexivity].
Qed.
Lemma look_global g n v : get g n = Some v -> look [] g n = Ok v.
Proof. intros H. unfold look. cbn [get]. now rewrite H. Qed.
Lemma look_outer loc g n v : get loc n = None -> get g n = Some v -> look loc g n = Ok v.
Proof. intros L H. unfold look. now rewrite L, H. Qed.

(** the functions of a body *)
Definition def_attr (q : pstmt) : env := match q with qDef d n ps b => [(n, VFun d ps b)] | _ => [] end.
Lemma body_defs g l : forall loc, forallb is_def l = true -> class_body g loc l = Ok (rev (flat_map def_attr l) ++ loc).
Proof.
  induction l as [|q l IH]; intros loc H; [reflexivity|]. cbn [forallb] in H. apply andb_prop in H. destruct H as (Q & H).
  destruct q; try discriminate Q. cbn [class_body class_step bind]. rewrite IH by exact H. cbn [flat_map def_attr app rev]. now rewrite <- app_assoc.
Qed.
Lemma keys_defs l : keys (flat_map def_attr l) = ClassSpec.defs l.
Proof.
  unfold ClassSpec.defs. induction l as [|q l IH]; [reflexivity|]. cbn [flat_map]. rewrite keys_app, IH. destruct q; reflexivity.
Qed.
