(** A constructor that is given two members of a union raises TypeError. *)
From Verif Require Import Base Spec BaseFacts Ptr PtrFacts Segment SegmentFacts Builder Copy Enc EncFacts
  EncDen CopyFacts Struct List Query StructFacts ObjFacts CopyList ArgSpec CopyListFacts Ctor CtorSpec CtorStore
  CtorSlots CtorFacts CCopyList BuilderC BuilderCFacts.
From Coq Require Import String ZifyBool ZifyNat.
From Coq Require Import Lists.List.
Local Notation length := Datatypes.length.
Open Scope string_scope.
Open Scope Z_scope.
Ltac Zify.zify_post_hook ::= Z.div_mod_to_equations.

Lemma some_arg_items P fs : forall l : list arg, map a_f l = filter visible fs ->
  some_arg P fs (map a_x l) -> Exists (fun a => P (a_f a) (a_x a)) l.
Proof.
  induction fs as [|f r IH]; intros l E H; cbn [some_arg filter] in *; [destruct H|].
  destruct (visible f); [|apply IH; assumption].
  destruct l as [|a l]; [discriminate E|]. cbn [map] in E, H. injection E as <- E.
  destruct H as [H|H]; [left; exact H|right; apply IH; assumption].
Qed.

Lemma items_some_arg (P : field -> pyval -> Prop) fs : forall l : list arg, map a_f l = filter visible fs ->
  Exists (fun a => P (a_f a) (a_x a)) l -> some_arg P fs (map a_x l).
Proof.
  induction fs as [|f r IH]; intros l E H; cbn [some_arg filter] in *.
  { destruct l; [inversion H|discriminate E]. }
  destruct (visible f); [|apply IH; assumption].
  destruct l as [|a l]; [discriminate E|]. cbn [map] in E |- *. injection E as <- E.
  inversion H; subst; [left; assumption|right; apply IH; assumption].
Qed.

Lemma items_args_of (P : field -> pyval -> list value -> Prop) fs : forall l : list arg, map a_f l = filter visible fs ->
  Forall (fun a => skipped a \/ ((is_member (a_f a) = true -> a_x a <> PUndef) /\ P (a_f a) (a_x a) (a_v a))) l ->
  args_of P fs (map a_x l) (concat (map a_v l)).
Proof.
  induction fs as [|f r IH]; intros l E H; cbn [args_of filter] in *.
  { destruct l; [split; reflexivity|discriminate E]. }
  destruct (visible f); [|apply IH; assumption].
  destruct l as [|a l]; [discriminate E|]. cbn [map] in E |- *. injection E as <- E. inversion H as [|? ? H1 H2]; subst.
  exists (a_x a), (map a_x l), (a_v a), (concat (map a_v l)). repeat split; [apply IH; assumption|].
  exact H1.
Qed.

(** Valid arguments are fine, or two members of a union are among them *)
Lemma valid_cases fuel f : forall x vals, arg_valid fuel f x vals -> arg_ok fuel f x vals \/ two_members f x.
Proof.
  induction f as [n o dc t off ex d|n o dc nl u fs IH] using field_ind'; intros x vals H; [left; exact H|].
  destruct nl; [left; exact H|]. cbn [arg_valid arg_ok two_members] in *. destruct H as (xs & PI & AO).
  destruct (args_of_items _ _ _ _ AO) as (l & LF & <- & <- & LG & LA).
  assert (C : Forall (fun a => skipped a \/ ((is_member (a_f a) = true -> a_x a <> PUndef) /\ arg_ok fuel (a_f a) (a_x a) (a_v a))) l
              \/ Exists (fun a => two_members (a_f a) (a_x a)) l).
  { assert (INL : forall a, In a l -> In (a_f a) fs).
    { intros a Ia. apply (in_map a_f) in Ia. rewrite LF in Ia. apply filter_In in Ia. apply Ia. }
    clear - IH LA INL. rewrite Forall_forall in IH. induction l as [|a l IHl]; [left; constructor|].
    inversion LA as [|? ? L1 L2]; subst. destruct (IHl L2) as [C|C]; [intros b Ib; apply INL; right; exact Ib| |right; right; exact C].
    destruct L1 as [S|[N V]]; [left; constructor; [left; exact S|exact C]|].
    destruct (IH (a_f a) (INL a (or_introl eq_refl)) _ _ V) as [A|T]; [|right; left; exact T].
    left. constructor; [right; split; assumption|exact C]. }
  destruct C as [C|C].
  - destruct (Nat.le_gt_cases (length (given fs (map a_x l))) 1) as [L|L].
    + left. exists (map a_x l). split; [exact PI|]. split; [apply items_args_of; assumption|exact L].
    + right. exists (map a_x l). split; [exact PI|]. left. lia.
  - right. exists (map a_x l). split; [exact PI|]. right. apply items_some_arg; assumption.
Qed.

(** ** The variables that a statement assigns, apart from the tags it checks *)
Fixpoint sets (s : stmt) : list string :=
  match s with
  | SNone v | SXor v _ => [v]
  | SIfDef _ body => flat_map sets body
  | SUnpack vs _ => vs
  | SNull v _ => [(v ++ "_is_null")%string; (v ++ "_value")%string]
  | _ => []
  end.

Lemma exec_if fuel v body (e : env) buf :
  exec_stmt fuel (SIfDef v body) (e, buf) =
  do x <- lookup e v; match x with PUndef => Ok (e, buf) | _ => exec fuel body (e, buf) end.
Proof.
  cbn [exec_stmt]. destruct (lookup e v) as [x|]; [|reflexivity]. cbn [bind].
  assert (G : forall st, (fix go (l : list stmt) (st : env * bytes) {struct l} : res (env * bytes) :=
       match l with [] => Ok st | s :: r => do st0 <- exec_stmt fuel s st; go r st0 end) body st = exec fuel body st).
  { induction body as [|s r IH]; intros st; [reflexivity|]. cbn [exec]. destruct (exec_stmt fuel s st); [apply IH|reflexivity]. }
  destruct x; try apply G. reflexivity.
Qed.

Lemma set_all_frame w vs : forall (e : env) xs (e' : env), set_all e vs xs = Some e' -> ~ In w vs -> e' w = e w.
Proof.
  induction vs as [|v vs IH]; intros e [|x xs] e' H N; cbn [set_all] in H; try discriminate H.
  - injection H as <-. reflexivity.
  - rewrite (IH _ _ _ H) by (intros I; apply N; right; exact I). apply setv_other. intros ->. apply N. left. reflexivity.
Qed.

Definition kept (w : string) (e e' : env) : Prop := e' w = e w \/ e' w = Some POther.

Lemma kept_trans w e e' e'' : kept w e e' -> kept w e' e'' -> kept w e e''.
Proof. unfold kept. intros [A|A] [B|B]; rewrite ?A in B; auto. Qed.

Lemma kept_all fuel w : (forall s (e : env) buf (e' : env) buf', exec_stmt fuel s (e, buf) = Ok (e', buf') -> ~ In w (sets s) -> kept w e e').
Proof.
  fix IH 1. intros s e buf e' buf' H N.
  destruct s as [v|v body|v|off val|vs g|v dflt|v d|wf off v|byo bio v|nul off v|off v|t off v|];
    try (cbn [exec_stmt] in H; discriminate H).
  - cbn [exec_stmt] in H. injection H as <- <-. left. apply setv_other. intros X. apply N. left. symmetry. exact X.
  - rewrite exec_if in H. destruct (lookup e v) as [x|]; [|discriminate H]. cbn [bind] in H.
    assert (G : forall (e : env) buf, exec fuel body (e, buf) = Ok (e', buf') -> kept w e e').
    { clear H. cbn [sets] in N. revert N. induction body as [|s r IHb]; intros N e0 b0 H.
      - cbn [exec] in H. injection H as <- <-. left. reflexivity.
      - cbn [exec] in H. destruct (exec_stmt fuel s (e0, b0)) as [[e1 b1]|] eqn:E; [|discriminate H]. cbn [bind] in H.
        eapply kept_trans.
        + eapply (IH s); [exact E|]. intros I. apply N. cbn [flat_map]. apply in_or_app. left. exact I.
        + eapply IHb; [|exact H]. intros I. apply N. cbn [flat_map]. apply in_or_app. right. exact I. }
    destruct x; try exact (G _ _ H). injection H as <- <-. left. reflexivity.
  - cbn [exec_stmt] in H. destruct (lookup e v) as [x|]; [|discriminate H]. cbn [bind] in H.
    destruct x; try discriminate H. injection H as <- <-. unfold kept.
    destruct (String.string_dec w v) as [X|D]; [right; rewrite X; apply setv_same|left; apply setv_other; exact D].
  - cbn [exec_stmt] in H. destruct (the_builder e); [|discriminate H]. cbn [bind] in H.
    destruct (b_write _ _ _ _); [|discriminate H]. cbn [bind] in H. injection H as <- <-. left. reflexivity.
  - cbn [exec_stmt] in H. destruct (lookup e g) as [x|]; [|discriminate H]. cbn [bind] in H.
    destruct (py_iter x) as [xs|]; [|discriminate H]. cbn [bind] in H.
    destruct (set_all e vs xs) eqn:E; [|discriminate H]. injection H as <- <-. left. eapply set_all_frame; [exact E|exact N].
  - cbn [exec_stmt] in H. destruct (lookup e v) as [x|]; [|discriminate H]. cbn [bind] in H. cbn [sets In] in N. left.
    assert (E1 : w <> (v ++ "_is_null")%string) by (intros X; apply N; left; symmetry; exact X).
    assert (E2 : w <> (v ++ "_value")%string) by (intros X; apply N; right; left; symmetry; exact X).
    destruct x; injection H as <- <-; rewrite (setv_other _ _ _ _ E2); apply setv_other; exact E1.
  - cbn [exec_stmt] in H. destruct (lookup e v) as [x|]; [|discriminate H]. cbn [bind] in H.
    destruct (py_xor x d); [|discriminate H]. cbn [bind] in H. injection H as <- <-. left. apply setv_other.
    intros X. apply N. left. symmetry. exact X.
  - cbn [exec_stmt] in H. destruct (the_builder e); [|discriminate H]. cbn [bind] in H.
    destruct (at_pos e off); [|discriminate H]. cbn [bind] in H. destruct (lookup e v); [|discriminate H]. cbn [bind] in H.
    destruct (write_scalar _ _ _ _); [|discriminate H]. cbn [bind] in H. injection H as <- <-. left. reflexivity.
  - cbn [exec_stmt] in H. destruct (the_builder e); [|discriminate H]. cbn [bind] in H.
    destruct (lookup e v); [|discriminate H]. cbn [bind] in H. destruct (as_shift _); [|discriminate H]. cbn [bind] in H.
    destruct (write_bool _ _ _ _); [|discriminate H]. cbn [bind] in H. injection H as <- <-. left. reflexivity.
  - cbn [exec_stmt] in H. destruct (the_builder e); [|discriminate H]. cbn [bind] in H.
    destruct (at_pos e off); [|discriminate H]. cbn [bind] in H. destruct (lookup e v); [|discriminate H]. cbn [bind] in H.
    destruct (as_bytes _); [|discriminate H]. cbn [bind] in H.
    destruct (if nul then _ else _) as [[? ?]|]; [|discriminate H]. cbn [bind] in H. injection H as <- <-. left. reflexivity.
  - cbn [exec_stmt] in H. destruct (the_builder e); [|discriminate H]. cbn [bind] in H.
    destruct (at_pos e off); [|discriminate H]. cbn [bind] in H. destruct (lookup e v); [|discriminate H]. cbn [bind] in H.
    destruct (copy_struct_arg _ _ _ _); [|discriminate H]. cbn [bind] in H. injection H as <- <-. left. reflexivity.
  - cbn [exec_stmt] in H. destruct (the_builder e); [|discriminate H]. cbn [bind] in H.
    destruct (at_pos e off); [|discriminate H]. cbn [bind] in H. destruct (lookup e v); [|discriminate H]. cbn [bind] in H.
    destruct (copy_from_list _ _ _ _ _); [|discriminate H]. cbn [bind] in H. injection H as <- <-. left. reflexivity.
Qed.

Lemma kept_list fuel w l : forall (e : env) buf (e' : env) buf', exec fuel l (e, buf) = Ok (e', buf') ->
  ~ In w (flat_map sets l) -> kept w e e'.
Proof.
  induction l as [|s r IH]; intros e buf e' buf' H N; cbn [exec] in H.
  - injection H as <- <-. left. reflexivity.
  - destruct (exec_stmt fuel s (e, buf)) as [[e1 b1]|] eqn:E; [|discriminate H]. cbn [bind] in H. cbn [flat_map] in N.
    eapply kept_trans; [eapply kept_all; [exact E|]|eapply IH; [exact H|]]; intros I; apply N; apply in_or_app; auto.
Qed.

Lemma sets_body ds ps f : forall prefix, field_ok ds ps f -> f_name f <> "" \/ True ->
  forall w, In w (flat_map sets (emit_body ds prefix f)) -> In w (vars prefix f).
Proof.
  induction f as [n o dc t off ex d|n o dc nl u fs IH] using field_ind'; intros prefix FO _ w I.
  - cbn [emit_body f_name] in I. left. cbn [f_name].
    destruct t; cbn [emit_slot] in I; try (destruct ex); cbn in I; intuition congruence.
  - cbn [field_ok] in FO. destruct FO as (_ & AF & NL). apply all_of_forall in AF. cbn [emit_body f_name] in I.
    set (v := varname prefix n) in *. rewrite vars_eq, rest_vars_group. fold v. right.
    assert (G : forall ctx w, In w (flat_map sets (emit_fields ds ctx v fs)) -> In w (flat_map (vars v) (filter visible fs))).
    { clear - IH AF. intros ctx w I. unfold emit_fields in I. apply in_flat_map in I. destruct I as (s & Is & Iw).
      apply in_flat_map in Is. destruct Is as (g & Ig & Is). apply in_flat_map. exists g. split; [exact Ig|].
      apply filter_In in Ig. rewrite Forall_forall in *. apply (IH g (proj1 Ig) v (AF g (proj1 Ig)) (or_intror I)).
      rewrite emit_field_eq in Is. destruct (f_disc g).
      - destruct ctx as [[? ?]|]; destruct Is as [<-|[]]; [|destruct Iw]. cbn [sets flat_map app] in Iw. exact Iw.
      - apply in_flat_map. exists s. auto. }
    apply in_or_app. right. destruct nl.
    + destruct NL as [Nn (o1 & t1 & off1 & e1' & d1 & o2 & t2 & off2 & e2' & d2 & -> & Fl & Sc)].
      assert (V12 : filter visible [FSlot "is_null" o1 None t1 off1 e1' d1; FSlot "value" o2 None t2 off2 e2' d2] =
                    [FSlot "is_null" o1 None t1 off1 e1' d1; FSlot "value" o2 None t2 off2 e2' d2]).
      { destruct t1; try destruct Fl; destruct t2; try destruct Sc; reflexivity. }
      assert (Hv : v <> "") by (apply varname_nonempty; exact Nn).
      rewrite V12 in *. cbn [flat_map] in I. apply in_app_or in I. destruct I as [I|I]; [|apply G in I; rewrite ?V12 in I; exact I].
      cbn [sets In] in I. cbn [flat_map vars f_name app In]. rewrite !(varname_ne v) by exact Hv. exact I.
    + cbn [flat_map] in I. apply in_app_or in I. destruct I as [I|I]; [|apply G in I; exact I].
      cbn [sets] in I. apply in_map_iff in I. destruct I as (g & <- & Ig). apply in_flat_map. exists g. split; [exact Ig|].
      rewrite vars_eq. left. reflexivity.
Qed.

Lemma sets_field ds ps ctx prefix f w : field_ok ds ps f -> In w (flat_map sets (emit_field ds ctx prefix f)) -> In w (vars prefix f).
Proof.
  intros FO I. rewrite emit_field_eq in I. apply (sets_body ds ps f prefix FO (or_intror Logic.I)).
  destruct (f_disc f); [|exact I]. destruct ctx as [[? ?]|]; cbn [flat_map sets app] in I; [|destruct I].
  rewrite app_nil_r in I. exact I.
Qed.

(** After a member was given, the tag of the union is taken *)
Lemma tag_taken fuel ds ps name u' prefix (l : list arg) (e : env) buf (e' : env) buf' :
  Forall (fun a => field_ok ds ps (a_f a)) l ->
  NoDup (curtag name :: flat_map (fun a => vars prefix (a_f a)) l) ->
  Forall (fun a => a_x a <> PUndef -> exists x, e (varname prefix (f_name (a_f a))) = Some x /\ x <> PUndef) l ->
  flat_map a_given l <> [] ->
  exec fuel (flat_map (emit_field ds (uctx name (Some u')) prefix) (map a_f l)) (e, buf) = Ok (e', buf') ->
  e' (curtag name) = Some POther.
Proof.
  revert e buf. induction l as [|a l IH]; intros e buf FO ND Ev GN E; [cbn in GN; congruence|].
  inversion FO as [|? ? FO1 FO2]; subst. inversion Ev as [|? ? Ev1 Ev2]; subst.
  cbn [flat_map map] in *. rewrite exec_app in E.
  destruct (exec fuel (emit_field ds (uctx name (Some u')) prefix (a_f a)) (e, buf)) as [[e1 b1]|] eqn:E1; [|discriminate E].
  cbn [bind] in E. inversion ND as [|? ? N1 N2]; subst. destruct (NoDup_app_inv _ _ N2) as (D1 & D2 & D3).
  assert (KT : forall (ea : env) ba eb bb, exec fuel (flat_map (emit_field ds (uctx name (Some u')) prefix) (map a_f l)) (ea, ba) = Ok (eb, bb) ->
                 kept (curtag name) ea eb).
  { intros ea ba eb bb X. eapply kept_list; [exact X|]. intros I. apply N1. apply in_or_app. right.
    apply in_flat_map in I. destruct I as (s & Is & Iw). apply in_flat_map in Is. destruct Is as (g & Ig & Is).
    apply in_map_iff in Ig. destruct Ig as (c & <- & Ic). apply in_flat_map. exists c. split; [exact Ic|].
    rewrite Forall_forall in FO2. eapply sets_field; [apply FO2; exact Ic|]. apply in_flat_map. exists s. eauto. }
  assert (FR : forall b, In b l -> kept (varname prefix (f_name (a_f b))) e e1).
  { intros b Ib. eapply kept_list; [exact E1|]. intros I. apply (sets_field ds ps) in I; [|exact FO1].
    eapply D3; [exact I|]. apply in_flat_map. exists b. split; [exact Ib|]. rewrite vars_eq. left. reflexivity. }
  destruct (a_given a) as [|g gr] eqn:GA.
  - (* not this one *)
    apply (IH e1 b1); [exact FO2|constructor; [|exact D2]|  |exact GN|exact E].
    + intros I. apply N1. apply in_or_app. right. exact I.
    + rewrite Forall_forall in Ev2 |- *. intros b Ib NU. destruct (Ev2 b Ib NU) as (x & X1 & X2).
      destruct (FR b Ib) as [K|K]; rewrite K; [eauto|]. exists POther. split; [reflexivity|discriminate].
  - assert (X : exists dd, f_disc (a_f a) = Some dd /\ a_x a <> PUndef).
    { unfold a_given in GA. destruct (f_disc (a_f a)) as [dd|]; [|discriminate GA]. exists dd. split; [reflexivity|].
      intros U. rewrite U in GA. discriminate GA. }
    destruct X as (dd & FD & NU). destruct (Ev1 NU) as (x & Ex & NX). rewrite emit_field_eq, FD in E1. cbn [uctx] in E1.
    cbn [exec] in E1. rewrite exec_if in E1. unfold lookup in E1 at 1. rewrite Ex in E1. cbn [bind] in E1.
    assert (E2 : exec fuel (SCheckTag (curtag name) :: STag (u' * 2) dd :: emit_body ds prefix (a_f a)) (e, buf) = Ok (e1, b1)).
    { destruct x; try congruence; destruct (exec fuel _ (e, buf)) as [[? ?]|]; try discriminate E1; exact E1. }
    clear E1. cbn [exec] in E2. destruct (exec_stmt fuel (SCheckTag (curtag name)) (e, buf)) as [[e2 b2]|] eqn:E3; [|discriminate E2].
    cbn [bind] in E2. destruct (exec_stmt fuel (STag (u' * 2) dd) (e2, b2)) as [[e3 b3]|] eqn:E4; [|discriminate E2]. cbn [bind] in E2.
    assert (P2 : e2 (curtag name) = Some POther).
    { cbn [exec_stmt] in E3. destruct (lookup e (curtag name)) as [y|]; [|discriminate E3]. cbn [bind] in E3.
      destruct y; try discriminate E3. injection E3 as <- <-. apply setv_same. }
    assert (K : kept (curtag name) e2 e').
    { eapply kept_trans; [eapply kept_all; [exact E4|auto]|]. eapply kept_trans; [eapply kept_list; [exact E2|]|eapply KT; exact E].
      intros I. apply N1. apply in_or_app. left. eapply sets_body; [exact FO1|auto|exact I]. }
    destruct K as [K|K]; congruence.
Qed.

(** TypeError in both modes *)
Definition both_err (fuel : nat) (l : list stmt) (e : env) (buf : bytes) : Prop :=
  exec fuel l (e, buf) = Err TypeError /\
  forall junk trunc st, Rc buf st -> c_exec junk trunc fuel l (e, st) = Err TypeError.

Lemma both_seq fuel l1 l2 e buf e1 b1 : exec fuel l1 (e, buf) = Ok (e1, b1) -> csim fuel l1 e buf e1 b1 ->
  both_err fuel l2 e1 b1 -> both_err fuel (l1 ++ l2)%list e buf.
Proof.
  intros E C [B1 B2]. split.
  - rewrite exec_app, E. cbn [bind]. exact B1.
  - intros junk trunc st R. destruct (C junk trunc st R) as (st1 & E1 & R1). rewrite c_exec_app, E1. cbn [bind]. apply B2. exact R1.
Qed.

Lemma both_left fuel l1 l2 e buf : both_err fuel l1 e buf -> both_err fuel (l1 ++ l2)%list e buf.
Proof.
  intros [B1 B2]. split.
  - rewrite exec_app, B1. reflexivity.
  - intros junk trunc st R. rewrite c_exec_app, (B2 junk trunc st R). reflexivity.
Qed.

Lemma both_if fuel v body (e : env) buf x : e v = Some x -> x <> PUndef -> both_err fuel body e buf ->
  both_err fuel [SIfDef v body] e buf.
Proof.
  intros Ev N [B1 B2]. split.
  - cbn [exec]. rewrite (ifdef_exec _ _ _ _ _ _ Ev N), B1. reflexivity.
  - intros junk trunc st R. specialize (B2 junk trunc st R). cbn [c_exec c_exec_stmt]. unfold lookup. rewrite Ev. cbn [bind].
    assert (G : forall l st, (fix go l st := match l with
                               | [] => Ok st
                               | s :: r => do st <- c_exec_stmt junk trunc fuel s st; go r st
                               end) l st = c_exec junk trunc fuel l st).
    { induction l as [|s l IH]; intros st0; [reflexivity|]. cbn [c_exec]. destruct (c_exec_stmt junk trunc fuel s st0); [|reflexivity].
      cbn [bind]. apply IH. }
    destruct x; try congruence; rewrite G, B2; reflexivity.
Qed.

Lemma both_pure fuel l e buf e1 : (forall b, exec fuel l (e, b) = Ok (e1, b)) -> csim fuel l e buf e1 buf ->
  forall l2, both_err fuel l2 e1 buf -> both_err fuel (l ++ l2)%list e buf.
Proof. intros E C l2 B. eapply both_seq; [apply E|exact C|exact B]. Qed.

Section Err.
Variables ds ps : Z.
Hypothesis Hds : 0 <= ds < 2 ^ 16.
Hypothesis Hps : 0 <= ps < 2 ^ 16.
Variable fuel : nat.
Notation store := (store ds ps).
Notation zero_on := (zero_on ds ps).

Definition err_field (f : field) : Prop :=
  forall prefix (e : env) buf d vs x vals,
    field_ok ds ps f -> NoDup ("builder" :: "pos" :: vars prefix f) ->
    e "builder" = Some PBuilder -> e "pos" = Some (PInt 0) ->
    e (varname prefix (f_name f)) = Some x ->
    (forall c, In c (ctags prefix f) -> e c = Some PNone) ->
    arg_valid fuel f x vals -> two_members f x -> store buf d vs -> zero_on (region f) d ->
    blen buf + out_size vals <= 2 ^ 32 ->
    both_err fuel (emit_body ds prefix f) e buf.

Definition valid_arg (a : arg) : Prop :=
  skipped a \/ ((is_member (a_f a) = true -> a_x a <> PUndef) /\ arg_valid fuel (a_f a) (a_x a) (a_v a)).
Definition fine_arg (a : arg) : Prop :=
  skipped a \/ ((is_member (a_f a) = true -> a_x a <> PUndef) /\ arg_ok fuel (a_f a) (a_x a) (a_v a)).
Definition bad (l : list arg) : Prop :=
  (2 <= length (flat_map a_given l))%nat \/ Exists (fun a => two_members (a_f a) (a_x a)) l.

Lemma a_given_len a : (length (a_given a) <= 1)%nat.
Proof. unfold a_given. destruct (f_disc (a_f a)); [|cbn; lia]. destruct (a_x a); cbn; lia. Qed.

(** The first offending argument *)
Lemma first_bad l : Forall valid_arg l -> bad l ->
  exists l0 b l2, l = (l0 ++ b :: l2)%list /\ Forall fine_arg l0 /\ (length (flat_map a_given l0) <= 1)%nat /\
    (two_members (a_f b) (a_x b) \/ (a_given b <> [] /\ flat_map a_given l0 <> [])).
Proof.
  induction l as [|c l IH] using rev_ind; intros V B.
  { destruct B as [B|B]; [cbn in B; lia|inversion B]. }
  apply Forall_app in V. destruct V as [V1 V2]. inversion V2 as [|? ? V3 _]; subst.
  assert (C : bad l \/ (Forall fine_arg l /\ (length (flat_map a_given l) <= 1)%nat)).
  { destruct (Nat.le_gt_cases (length (flat_map a_given l)) 1) as [L|L]; [|left; left; lia].
    assert (D : Forall fine_arg l \/ Exists (fun a => two_members (a_f a) (a_x a)) l).
    { clear - V1. induction l as [|a l IHl]; [left; constructor|]. inversion V1 as [|? ? L1 L2]; subst.
      destruct (IHl L2) as [C|C]; [|right; right; exact C].
      destruct L1 as [S|[N V]]; [left; constructor; [left; exact S|exact C]|].
      destruct (valid_cases _ _ _ _ V) as [A|T]; [left; constructor; [right; auto|exact C]|right; left; exact T]. }
    destruct D as [D|D]; [right; auto|left; right; exact D]. }
  destruct C as [C|[C1 C2]].
  - destruct (IH V1 C) as (l0 & b & l2 & -> & F & G & H). exists l0, b, (l2 ++ [c])%list.
    rewrite <- app_assoc. auto.
  - exists l, c, []. split; [reflexivity|]. split; [exact C1|]. split; [exact C2|].
    destruct B as [B|B].
    + right. rewrite flat_map_app in B. cbn [flat_map] in B. rewrite app_nil_r, app_length in B.
      pose proof (a_given_len c). split; intros X; rewrite X in B; cbn [length] in B; lia.
    + apply Exists_app in B. destruct B as [B|B].
      * exfalso. clear - B C1. rewrite Exists_exists in B. destruct B as (a & Ia & T). rewrite Forall_forall in C1.
        destruct (C1 a Ia) as [(M & U & _)|[_ A]].
        -- rewrite U in T. destruct (a_f a) as [|? ? ? nl ? ?]; [destruct T|]. destruct nl; [destruct T|].
           destruct T as (xs & PI & _). discriminate PI.
        -- revert T A. generalize (a_x a) (a_v a). induction (a_f a) as [|n o dc nl u fs IH] using field_ind'; intros x v T A; [destruct T|].
           destruct nl; [destruct T|]. cbn [two_members arg_ok] in *. destruct T as (xs & PI & T). destruct A as (xs' & PI' & AO & GL).
           rewrite PI in PI'. injection PI' as <-. destruct T as [T|T]; [lia|].
           destruct (args_of_items _ _ _ _ AO) as (l' & LF & <- & _ & _ & LA).
           apply (some_arg_items _ _ _ LF) in T. rewrite Exists_exists in T. destruct T as (b & Ib & T).
           rewrite Forall_forall in LA, IH. destruct (LA b Ib) as [(M & U & _)|[_ A]].
           ++ rewrite U in T. destruct (a_f b) as [|? ? ? nl ? ?]; [destruct T|]. destruct nl; [destruct T|].
              destruct T as (xs' & PI' & _). discriminate PI'.
           ++ apply (IH (a_f b)) with (2 := T) (3 := A). apply (in_map a_f) in Ib. rewrite LF in Ib. apply filter_In in Ib. apply Ib.
      * inversion B; subst; [left; assumption|]. match goal with H : Exists _ [] |- _ => inversion H end.
Qed.

Lemma fop_app_l {A} (P : A -> A -> Prop) l1 l2 : ForallOrdPairs P (l1 ++ l2) -> ForallOrdPairs P l1.
Proof.
  induction l1 as [|a l1 IH]; intros H; [constructor|]. cbn [app] in H. inversion H; subst. constructor; [|apply IH; assumption].
  match goal with H : Forall _ (l1 ++ l2) |- _ => apply Forall_app in H; apply H end.
Qed.

Lemma fop_app_in {A} (P : A -> A -> Prop) l1 a l2 b : ForallOrdPairs P (l1 ++ a :: l2) -> In b l1 -> P b a.
Proof.
  induction l1 as [|c l1 IH]; intros H I; [destruct I|]. cbn [app] in H. inversion H; subst. destruct I as [<-|I].
  - match goal with H : Forall _ _ |- _ => rewrite Forall_forall in H; apply H end. apply in_or_app. right. left. reflexivity.
  - apply IH; assumption.
Qed.

Lemma scope_err name prefix u (l : list arg) (e : env) buf d vs :
  (forall u', u = Some u' -> 0 <= u' /\ 16 * u' + 16 <= 64 * ds) ->
  (u = None -> Forall (fun a => f_disc (a_f a) = None) l) ->
  Forall (fun a => field_ok ds ps (a_f a)) l -> Forall (fun a => err_field (a_f a)) l ->
  ForallOrdPairs (fun f g => (is_member f = true /\ is_member g = true) \/ apart f g) (map a_f l) ->
  Forall (fun a => forall p, tag_region u p -> region (a_f a) p -> False) l ->
  Forall (fun a => forall dd, f_disc (a_f a) = Some dd -> 0 <= dd < 2 ^ 15) l ->
  NoDup ("builder" :: "pos" :: (match u with Some _ => [curtag name] | None => [] end ++
         flat_map (fun a => vars prefix (a_f a)) l)%list) ->
  e "builder" = Some PBuilder -> e "pos" = Some (PInt 0) ->
  Forall (fun a => e (varname prefix (f_name (a_f a))) = Some (a_x a)) l ->
  (forall a c, In a l -> In c (ctags prefix (a_f a)) -> e c = Some PNone) ->
  (u <> None -> e (curtag name) = Some PNone) ->
  Forall valid_arg l -> bad l ->
  store buf d vs -> zero_on (fun p => Exists (fun a => region (a_f a) p) l) d -> blen buf + out_size (concat (map a_v l)) <= 2 ^ 32 ->
  both_err fuel (flat_map (emit_field ds (uctx name u) prefix) (map a_f l)) e buf.
Proof.
  intros Hu Hn FO EF AP TG DR ND Eb Ep Ev Ec Et VA BD S Z0 Hl.
  destruct (first_bad l VA BD) as (l0 & b & l2 & -> & FA & GL & BB).
  assert (INb : In b (l0 ++ b :: l2)) by (apply in_or_app; right; left; reflexivity).
  assert (IN0 : forall a, In a l0 -> In a (l0 ++ b :: l2)) by (intros a Ia; apply in_or_app; auto).
  set (ct := match u with Some _ => [curtag name] | None => [] end) in *.
  (* names *)
  assert (NDS : NoDup ("builder" :: "pos" :: (ct ++ flat_map (fun a => vars prefix (a_f a)) l0)%list) /\
                NoDup ("builder" :: "pos" :: vars prefix (a_f b)) /\
                (forall w, In w (vars prefix (a_f b)) -> In w (flat_map (fun a => vars prefix (a_f a)) l0) -> False) /\
                (forall w, In w (vars prefix (a_f b)) -> In w ct -> False) /\
                (forall w, In w ct -> In w (flat_map (fun a => vars prefix (a_f a)) l0) -> False) /\
                ~ In "builder" ct /\ ~ In "pos" ct).
  { rewrite flat_map_app in ND. cbn [flat_map] in ND. set (A := flat_map _ l0) in *. set (B := vars prefix (a_f b)) in *.
    set (C := flat_map _ l2) in *. inversion ND as [|? ? N1 N2]; subst. inversion N2 as [|? ? N3 N4]; subst.
    destruct (NoDup_app_inv _ _ N4) as (D1 & D2 & D3). destruct (NoDup_app_inv _ _ D2) as (D4 & D5 & D6).
    destruct (NoDup_app_inv _ _ D5) as (D7 & D8 & D9).
    assert (IA : forall w, In w A -> In w (A ++ B ++ C)%list) by (intros; apply in_or_app; auto).
    assert (IB : forall w, In w B -> In w (A ++ B ++ C)%list) by (intros; apply in_or_app; right; apply in_or_app; auto).
    assert (M : forall (p q : list string), NoDup p -> NoDup q -> (forall x, In x p -> In x q -> False) -> NoDup (p ++ q)%list).
    { induction p as [|x p IHp]; intros q Np Nq Dj; [exact Nq|]. inversion Np; subst. cbn [app]. constructor.
      - intros I. apply in_app_or in I. destruct I as [I|I]; [contradiction|]. eapply Dj; [left; reflexivity|exact I].
      - apply IHp; auto. intros y I1 I2. eapply Dj; [right; exact I1|exact I2]. }
    split; [|split; [|split; [|split; [|split; [|split]]]]].
    - constructor; [|constructor].
      + intros [X|X]; [discriminate X|]. apply N1. right. apply in_app_or in X. apply in_or_app. destruct X; auto.
      + intros X. apply N3. apply in_app_or in X. apply in_or_app. destruct X; auto.
      + apply M; auto. intros x I1 I2. eapply D3; eauto.
    - constructor; [|constructor].
      + intros [X|X]; [discriminate X|]. apply N1. right. apply in_or_app. auto.
      + intros X. apply N3. apply in_or_app. auto.
      + exact D7.
    - intros w I1 I2. eapply D6; [exact I2|]. apply in_or_app. auto.
    - intros w I1 I2. eapply D3; eauto.
    - intros w I1 I2. eapply D3; eauto.
    - intros I. apply N1. right. apply in_or_app. auto.
    - intros I. apply N3. apply in_or_app. auto. }
  destruct NDS as (ND0 & NDb & DB0 & DBC & DC0 & NBC & NPC).
  rewrite map_app, concat_app, out_size_app in Hl. cbn [map concat] in Hl. rewrite out_size_app in Hl.
  pose proof (out_size_nonneg (concat (map a_v l2))). pose proof (out_size_nonneg (a_v b)).
  (* run what comes before *)
  destruct (scope_exec ds ps Hds Hps fuel name prefix u l0 e buf d vs) as (e1 & b1 & d1 & vs1 & E1 & S1 & L1 & W1 & F1 & _ & _ & C1);
    try assumption; try lia.
  - intros X. specialize (Hn X). apply Forall_app in Hn. apply Hn.
  - apply Forall_app in FO. apply FO.
  - rewrite Forall_forall. intros a _. apply ok_all; assumption.
  - rewrite map_app in AP. apply fop_app_l in AP. exact AP.
  - apply Forall_app in TG. apply TG.
  - apply Forall_app in DR. apply DR.
  - apply Forall_app in Ev. apply Ev.
  - intros a c Ia. apply Ec, IN0, Ia.
  - intros NE. apply Et. intros U. apply NE. specialize (Hn U). rewrite Forall_forall in Hn.
    clear - Hn IN0. induction l0 as [|a l0 IHl]; [reflexivity|]. cbn [flat_map]. rewrite a_given_none.
    + apply IHl; [intros c Ic; apply Hn; right; exact Ic|intros c Ic; apply in_or_app; auto].
    + left. unfold is_member. rewrite Hn; [reflexivity|left; reflexivity].
  - intros i V (a & Ia & _ & Ra). apply Z0; [exact V|]. apply Exists_exists. exists a. auto.
  - rewrite map_app, flat_map_app. eapply both_seq; [exact E1|exact C1|]. cbn [map flat_map]. apply both_left.
    rewrite Forall_forall in *.
    assert (EVb : e1 (varname prefix (f_name (a_f b))) = Some (a_x b)).
    { rewrite <- (Ev b INb). apply W1. split; [|intros _]; intros I.
      - eapply DB0; [|exact I]. rewrite vars_eq. left. reflexivity.
      - eapply DBC; [|exact I]. rewrite vars_eq. left. reflexivity. }
    assert (ECb : forall c, In c (ctags prefix (a_f b)) -> e1 c = Some PNone).
    { intros c Ic. rewrite <- (Ec b c INb Ic). apply ctags_rest in Ic. apply W1. split; [|intros _]; intros I.
      - eapply DB0; [|exact I]. rewrite vars_eq. right. exact Ic.
      - eapply DBC; [|exact I]. rewrite vars_eq. right. exact Ic. }
    assert (EB1 : e1 "builder" = Some PBuilder).
    { rewrite <- Eb. apply W1. split; [|auto]. intros I. inversion ND0 as [|? ? N1 N2]; subst. apply N1. right. apply in_or_app. auto. }
    assert (EP1 : e1 "pos" = Some (PInt 0)).
    { rewrite <- Ep. apply W1. split; [|auto]. intros I. inversion ND0 as [|? ? N1 N2]; subst. inversion N2 as [|? ? N3 N4]; subst.
      apply N3. apply in_or_app. auto. }
    assert (VB : a_x b <> PUndef -> (is_member (a_f b) = true -> a_x b <> PUndef) /\ arg_valid fuel (a_f b) (a_x b) (a_v b)).
    { intros NU. destruct (VA b INb) as [(_ & U & _)|X]; [congruence|exact X]. }
    assert (NUb : a_x b <> PUndef).
    { destruct BB as [T|[G _]].
      - intros U. rewrite U in T. destruct (a_f b) as [|? ? ? nl ? ?]; [destruct T|]. destruct nl; [destruct T|].
        destruct T as (xs & PI & _). discriminate PI.
      - intros U. apply G. apply a_given_none. auto. }
    destruct (VB NUb) as [_ AV].
    rewrite emit_field_eq. destruct (f_disc (a_f b)) as [dd|] eqn:FD.
    + assert (U : exists u', u = Some u').
      { destruct u as [u'|]; [exists u'; reflexivity|]. specialize (Hn eq_refl b INb). congruence. }
      destruct U as (u' & ->). cbn [uctx]. destruct (Hu u' eq_refl) as [Hu1 Hu2].
      apply (both_if _ _ _ _ _ _ EVb NUb).
      destruct (flat_map a_given l0) as [|g0 gr] eqn:G0.
      * (* the first member, with a union inside *)
        destruct BB as [T|[_ X]]; [|congruence].
        assert (CT1 : e1 (curtag name) = Some PNone).
        { rewrite <- Et by discriminate. apply W1. split; [|congruence]. intros I. eapply DC0; [left; reflexivity|exact I]. }
        destruct (tag_exec ds ps Hps fuel u' dd name e1 b1 d1 vs1) as (e2 & b2 & d2 & vs2 & E2 & S2 & L2 & W2 & F2 & _ & _ & C2);
          try assumption; try lia.
        { intros X. apply NBC. left. exact X. }
        change (SCheckTag (curtag name) :: STag (u' * 2) dd :: emit_body ds prefix (a_f b))
          with ([SCheckTag (curtag name); STag (u' * 2) dd] ++ emit_body ds prefix (a_f b))%list.
        eapply both_seq; [exact E2|exact C2|].
        apply (EF b INb prefix e2 b2 d2 vs2 (a_x b) (a_v b)); try assumption; try reflexivity.
        -- apply FO. exact INb.
        -- rewrite W2; [exact EB1|]. intros X. apply NBC. left. symmetry. exact X.
        -- rewrite W2; [exact EP1|]. intros X. apply NPC. left. symmetry. exact X.
        -- rewrite W2; [exact EVb|]. intros X. eapply DBC; [|left; reflexivity]. rewrite vars_eq. left. exact X.
        -- intros c Ic. rewrite W2; [apply ECb; exact Ic|]. intros ->. eapply DBC; [|left; reflexivity].
           rewrite vars_eq. right. apply ctags_rest. exact Ic.
        -- intros i V Ri.
           assert (SM : bit_at d i = bit_at d2 i).
           { transitivity (bit_at d1 i).
             - apply (F1 (LBit i) V). intros [(a & Ia & Wa & Ra)|[X _]]; [|congruence].
               rewrite map_app in AP. cbn [map] in AP.
               destruct (fop_app_in _ _ _ _ (a_f a) AP (in_map a_f _ _ Ia)) as [[M1 M2]|AA]; [|exact (AA _ Ra Ri)].
               destruct Wa as [Wa|Wa]; [congruence|]. unfold is_member in M1. destruct (f_disc (a_f a)) as [da|] eqn:FDa; [|discriminate].
               pose proof (a_given_member a da FDa Wa) as GA.
               assert (In da (flat_map a_given l0)) as I2 by (apply in_flat_map; exists a; split; [exact Ia|rewrite GA; left; reflexivity]).
               rewrite G0 in I2. destruct I2.
             - apply (F2 (LBit i) V). intros Ti. exact (TG b INb _ Ti Ri). }
           rewrite <- SM. apply Z0; [exact V|]. apply Exists_exists. exists b. auto.
        -- lia.
      * (* the second member *)
        assert (CT1 : e1 (curtag name) = Some POther).
        { eapply (tag_taken fuel ds ps name u' prefix l0 e buf); [| | | |exact E1].
          - rewrite Forall_forall. intros a Ia. apply FO, IN0, Ia.
          - inversion ND0 as [|? ? N1 N2]; subst. inversion N2 as [|? ? N3 N4]; subst. exact N4.
          - rewrite Forall_forall. intros a Ia NU. exists (a_x a). split; [apply Ev, IN0, Ia|exact NU].
          - rewrite G0. discriminate. }
        split; [cbn [exec exec_stmt]; unfold lookup; rewrite CT1; reflexivity|].
        intros junk trunc st R. cbn [c_exec c_exec_stmt]. unfold lookup. rewrite CT1. reflexivity.
    + (* not a member *)
      destruct BB as [T|[G _]]; [|exfalso; apply G; apply a_given_none; left; unfold is_member; rewrite FD; reflexivity].
      apply (EF b INb prefix e1 b1 d1 vs1 (a_x b) (a_v b)); try assumption.
      * apply FO. exact INb.
      * intros i V Ri.
        assert (SM : bit_at d i = bit_at d1 i).
        { apply (F1 (LBit i) V). intros [(a & Ia & Wa & Ra)|[_ Ti]]; [|exact (TG b INb _ Ti Ri)].
          rewrite map_app in AP. cbn [map] in AP.
          destruct (fop_app_in _ _ _ _ (a_f a) AP (in_map a_f _ _ Ia)) as [[M1 M2]|AA]; [|exact (AA _ Ra Ri)].
          unfold is_member in M2. rewrite FD in M2. discriminate. }
        rewrite <- SM. apply Z0; [exact V|]. apply Exists_exists. exists b. auto.
      * lia.
Qed.

(** The whole scope *)
Lemma scope_err_full name prefix u fs xs vals (e : env) buf d vs :
  scope_ok ds u fs -> Forall (field_ok ds ps) fs -> Forall err_field fs ->
  NoDup ("builder" :: "pos" :: (match u with Some _ => [curtag name] | None => [] end ++
         flat_map (vars prefix) (filter visible fs))%list) ->
  e "builder" = Some PBuilder -> e "pos" = Some (PInt 0) ->
  Forall2 (fun v x => e v = Some x) (map (fun g => varname prefix (f_name g)) (filter visible fs)) xs ->
  (forall f c, In f (filter visible fs) -> In c (ctags prefix f) -> e c = Some PNone) ->
  (u <> None -> e (curtag name) = Some PNone) ->
  args_of (arg_valid fuel) fs xs vals ->
  (length (given fs xs) > 1)%nat \/ some_arg two_members fs xs ->
  store buf d vs -> zero_on (fun p => some_of (fun g => region g p) fs) d ->
  blen buf + out_size vals <= 2 ^ 32 ->
  both_err fuel (emit_fields ds (uctx name u) prefix fs) e buf.
Proof.
  intros (SP & SU & SN & ST & SD & SDD) FO OK ND Eb Ep Ev Ec Et AO TW S Z0 Hl.
  destruct (args_of_items _ _ _ _ AO) as (l' & LF & LX & LV & LG & LA).
  assert (IN : forall a, In a l' -> In (a_f a) fs).
  { intros a Ia. apply (in_map a_f) in Ia. rewrite LF in Ia. apply filter_In in Ia. apply Ia. }
  assert (FM : forall (B : Type) (h : field -> list B), flat_map (fun a => h (a_f a)) l' = flat_map h (filter visible fs)).
  { intros B h. rewrite <- LF. clear. induction l' as [|a l' IH]; [reflexivity|]. cbn [flat_map map]. rewrite IH. reflexivity. }
  unfold emit_fields. rewrite <- LF. rewrite Forall_forall in FO, OK, SD.
  eapply (scope_err name prefix u l'); try eassumption.
  - intros Hn. rewrite Forall_forall. intros a Ia. destruct (f_disc (a_f a)) as [dd|] eqn:FD; [|reflexivity].
    pose proof (in_discs _ _ _ (IN a Ia) FD) as I. rewrite (SN Hn) in I. destruct I.
  - rewrite Forall_forall. intros a Ia. apply FO, IN, Ia.
  - rewrite Forall_forall. intros a Ia. apply OK, IN, Ia.
  - rewrite LF. apply fop_filter. exact SP.
  - rewrite Forall_forall. intros a Ia p T R. exact (ST (a_f a) p (IN a Ia) T R).
  - rewrite Forall_forall. intros a Ia dd FD. apply SD. eapply in_discs; [apply IN; exact Ia|exact FD].
  - rewrite (FM _ (vars prefix)). exact ND.
  - rewrite <- LF, map_map in Ev. rewrite <- LX in Ev. clear - Ev. induction l' as [|a l' IH]; [constructor|].
    cbn [map] in Ev. inversion Ev; subst. constructor; [assumption|]. apply IH. assumption.
  - intros a c Ia Ic. apply (Ec (a_f a) c); [|exact Ic]. rewrite <- LF. apply in_map. exact Ia.
  - destruct TW as [T|T]; [left; rewrite <- LG; lia|]. right. rewrite <- LX in T. eapply some_arg_items; eassumption.
  - intros i V R. apply Z0; [exact V|]. apply Exists_exists in R. destruct R as (a & Ia & Ra).
    apply some_of_in. exists (a_f a). split; [apply IN; exact Ia|exact Ra].
  - rewrite LV. exact Hl.
Qed.

Lemma err_all f : err_field f.
Proof.
  induction f as [n o dc t off ex dd|n o dc nl u fs IH] using field_ind';
    intros prefix e buf d vs x vals FO ND Eb Ep Ev Ec AO TM S Z0 Hl; [destruct TM|].
  destruct nl; [destruct TM|].
  cbn [field_ok] in FO. destruct FO as (SO & AF & NL). apply all_of_forall in AF.
  cbn [emit_body f_name] in *. set (v := varname prefix n) in *.
  rewrite vars_eq, rest_vars_group in ND. cbn [f_name] in ND. fold v in ND.
  set (inner := (match u with Some _ => [curtag v] | None => [] end ++ flat_map (vars v) (filter visible fs))%list) in *.
  assert (ND' : NoDup ("builder" :: "pos" :: inner)).
  { inversion ND as [|? ? N1 N2]; subst. inversion N2 as [|? ? N3 N4]; subst. inversion N4 as [|? ? N5 N6]; subst.
    constructor; [|constructor; [|exact N6]].
    - intros [X|X]; [discriminate X|]. apply N1. right. right. exact X.
    - intros X. apply N3. right. exact X. }
  set (heads := map (fun g => varname v (f_name g)) (filter visible fs)).
  assert (HF : flat_map (vars v) (filter visible fs) =
               flat_map (fun g => varname v (f_name g) :: rest_vars v g) (filter visible fs)).
  { apply flat_map_ext. intros g. apply vars_eq. }
  assert (HI : forall w, In w heads -> In w (flat_map (vars v) (filter visible fs))).
  { intros w Hw. apply in_map_iff in Hw. destruct Hw as (g & <- & Hg). apply in_flat_map. exists g. split; [exact Hg|].
    rewrite vars_eq. left. reflexivity. }
  assert (NDF : NoDup (flat_map (vars v) (filter visible fs)) /\ (u <> None -> ~ In (curtag v) heads)).
  { inversion ND' as [|? ? N1 N2]; subst. inversion N2 as [|? ? N3 N4]; subst. unfold inner in N4.
    destruct (NoDup_app_inv _ _ N4) as (D1 & D2 & D3). split; [exact D2|]. intros NU I. destruct u; [|congruence].
    eapply D3; [left; reflexivity|]. apply HI. exact I. }
  destruct NDF as [NDF NCH].
  assert (NDH : NoDup heads).
  { clear - NDF HF. rewrite HF in NDF. unfold heads. revert NDF. generalize (filter visible fs). intros gs.
    induction gs as [|g gs IHg]; cbn [flat_map map]; intros N; [constructor|].
    inversion N as [|? ? N1 N2]; subst. destruct (NoDup_app_inv _ _ N2) as (D1 & D2 & D3). constructor; [|apply IHg; exact D2].
    intros I. apply N1, in_or_app. right. apply in_map_iff in I. destruct I as (h & E & Ih). apply in_flat_map.
    exists h. split; [exact Ih|]. left. exact E. }
  assert (HB : ~ In "builder" heads /\ ~ In "pos" heads).
  { inversion ND' as [|? ? N1 N2]; subst. inversion N2 as [|? ? N3 N4]; subst. split; intros I.
    - apply N1. right. unfold inner. apply in_or_app. right. apply HI. exact I.
    - apply N3. unfold inner. apply in_or_app. right. apply HI. exact I. }
  assert (HC : forall g c, In g (filter visible fs) -> In c (ctags v g) -> ~ In c heads).
  { intros g c Hg Hc I. rewrite HF in NDF. eapply (heads_tails _ _ _ c NDF I). apply in_flat_map. exists g. split; [exact Hg|].
    apply ctags_rest. exact Hc. }
  assert (ECG : forall g c, In g (filter visible fs) -> In c (ctags v g) -> e c = Some PNone).
  { intros g c Hg Hc. apply Ec. unfold ctags. rewrite unions_of_group, map_app, map_flat. fold v. apply in_or_app. right.
    apply in_flat_map. exists g. split; [exact Hg|exact Hc]. }
  assert (ECT : u <> None -> e (curtag v) = Some PNone).
  { intros NU. apply Ec. unfold ctags. rewrite unions_of_group, map_app. fold v. apply in_or_app. left.
    destruct u; [left; reflexivity|congruence]. }
  cbn [arg_valid two_members] in AO, TM. destruct AO as (xs & PI & AO). destruct TM as (xs' & PI' & TM).
  rewrite PI in PI'. injection PI' as <-.
  assert (LEN : length heads = length xs).
  { unfold heads. destruct (args_of_items _ _ _ _ AO) as (l' & LF & LX & _). rewrite map_length, <- LF, <- LX, !map_length. reflexivity. }
  destruct (set_all_ok heads e xs NDH LEN) as (e1 & SA & F1 & E12).
  match goal with |- both_err _ (?s :: ?r) _ _ => change (s :: r) with ([s] ++ r)%list end.
  apply (both_pure fuel _ e buf e1).
  { intros b. cbn [exec exec_stmt]. unfold lookup. rewrite Ev. cbn [bind]. rewrite PI. cbn [bind]. fold heads. rewrite SA. reflexivity. }
  { apply csim_one. intros junk trunc st R. exists st. split; [|exact R].
    cbn [c_exec_stmt]. unfold lookup. rewrite Ev. cbn [bind]. rewrite PI. cbn [bind]. fold heads. rewrite SA. reflexivity. }
  eapply scope_err_full; try eassumption.
  - rewrite F1; [exact Eb|apply HB].
  - rewrite F1; [exact Ep|apply HB].
  - intros g c Hg Hc. rewrite F1; [eapply ECG; eassumption|]. eapply HC; eassumption.
  - intros NU. rewrite F1; [apply ECT; exact NU|]. apply NCH. exact NU.
  - intros i V R. apply Z0; [exact V|]. cbn [region]. right. exact R.
Qed.
End Err.
