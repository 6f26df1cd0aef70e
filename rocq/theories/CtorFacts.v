(** The generated constructor writes every argument where the getters find
    it. *)
From Verif Require Import Base Spec BaseFacts Ptr PtrFacts Segment SegmentFacts Builder Copy Enc EncFacts
  EncDen CopyFacts Struct List Query StructFacts ObjFacts CopyList ArgSpec CopyListFacts Ctor CtorSpec CtorStore
  BuilderC BuilderSim BuilderCFacts CCopyList CopyListStrict CtorSlots.
From Coq Require Import String ZifyBool ZifyNat.
From Coq Require Import Lists.List.
Local Notation length := Datatypes.length.
Open Scope string_scope.
Open Scope Z_scope.
Ltac Zify.zify_post_hook ::= Z.div_mod_to_equations.

(** ** Induction on fields *)
Fixpoint field_ind' (P : field -> Prop)
  (Hs : forall n o dc t off ex d, P (FSlot n o dc t off ex d))
  (Hg : forall n o dc nl u fs, Forall P fs -> P (FGroup n o dc nl u fs)) (f : field) : P f :=
  match f with
  | FSlot n o dc t off ex d => Hs n o dc t off ex d
  | FGroup n o dc nl u fs =>
      Hg n o dc nl u fs ((fix go l : Forall P l := match l with
                         | [] => Forall_nil P
                         | g :: r => Forall_cons g (field_ind' P Hs Hg g) (go r)
                         end) fs)
  end.

Lemma all_of_forall P fs : all_of P fs <-> Forall P fs.
Proof.
  induction fs as [|f r IH]; cbn [all_of]; [split; [constructor|exact (fun _ => I)]|].
  split; [intros [A B]; constructor; tauto|]. intros H. inversion H; subst. tauto.
Qed.

Lemma some_of_in P fs : some_of P fs <-> exists f, In f fs /\ P f.
Proof.
  induction fs as [|f r IH]; cbn [some_of In].
  - split; [intros []|intros (f & [] & _)].
  - rewrite IH. split; [intros [A|(g & A & B)]; eauto|]. intros (g & [<-|A] & B); eauto.
Qed.

Lemma concat_of_flat {A} (P : field -> list A) fs : concat_of P fs = flat_map P (filter visible fs).
Proof.
  induction fs as [|f r IH]; cbn [concat_of filter]; [reflexivity|]. destruct (visible f); cbn [flat_map]; congruence.
Qed.

(** ** The statements of a field *)
Definition uctx (name : string) (u : option Z) : option (string * Z) :=
  match u with Some u => Some (name, u * 2) | None => None end.

Definition emit_body (ds : Z) (prefix : string) (f : field) : list stmt :=
  let v := varname prefix (f_name f) in
  match f with
  | FSlot _ _ _ t off ex d => emit_slot ds v t off ex d
  | FGroup _ _ _ nullable u fs =>
      if nullable then
        match filter visible fs with
        | _ :: value :: _ => SNull v (default None value) :: emit_fields ds (uctx v u) v fs
        | _ => [SRaise]
        end
      else SUnpack (map (fun g => varname v (f_name g)) (filter visible fs)) v :: emit_fields ds (uctx v u) v fs
  end.

Lemma emit_field_eq ds union prefix f :
  emit_field ds union prefix f =
  match f_disc f with
  | Some d =>
      match union with
      | Some (u, off) => [SIfDef (varname prefix (f_name f)) (SCheckTag (curtag u) :: STag off d :: emit_body ds prefix f)]
      | None => [SRaise]
      end
  | None => emit_body ds prefix f
  end.
Proof.
  assert (G : forall union v fs,
    (fix go l := match l with
                 | [] => []
                 | g :: r => if visible g then (emit_field ds union v g ++ go r)%list else go r
                 end) fs = emit_fields ds union v fs).
  { intros un v fs. unfold emit_fields. induction fs as [|g r IH]; [reflexivity|]. cbn [filter].
    destruct (visible g); cbn [flat_map]; rewrite IH; reflexivity. }
  destruct f as [n o dc t off ex d|n o dc nl u fs]; [reflexivity|].
  cbn [emit_field f_name f_disc emit_body]. rewrite !G. reflexivity.
Qed.

(** ** Fields with their arguments *)
Definition arg := (field * pyval * list value)%type.
Definition a_f (a : arg) : field := fst (fst a).
Definition a_x (a : arg) : pyval := snd (fst a).
Definition a_v (a : arg) : list value := snd a.
Definition a_ws (a : arg) : list (Z * value) := combine (ptr_slots (a_f a) (a_x a)) (a_v a).
Definition skipped (a : arg) : Prop := is_member (a_f a) = true /\ a_x a = PUndef /\ a_v a = [].
Definition a_given (a : arg) : list Z :=
  match f_disc (a_f a), a_x a with
  | Some _, PUndef | None, _ => []
  | Some d, _ => [d]
  end.

Lemma args_of_items P fs : forall xs vals, args_of P fs xs vals ->
  exists l : list arg, map a_f l = filter visible fs /\ map a_x l = xs /\ concat (map a_v l) = vals /\
    given fs xs = flat_map a_given l /\
    Forall (fun a => skipped a \/ ((is_member (a_f a) = true -> a_x a <> PUndef) /\ P (a_f a) (a_x a) (a_v a))) l.
Proof.
  induction fs as [|f r IH]; intros xs vals H; cbn [args_of filter given] in *.
  - destruct H as [-> ->]. exists []. repeat split. constructor.
  - destruct (visible f).
    + destruct H as (x & xs' & v1 & v2 & -> & -> & H & C). destruct (IH _ _ H) as (l & <- & <- & <- & G & F).
      exists ((f, x, v1) :: l). cbn [map a_f a_x a_v fst snd concat flat_map]. repeat split.
      * rewrite G.
        change (a_given (f, x, v1)) with (match f_disc f, x with Some _, PUndef | None, _ => [] | Some d, _ => [d] end).
        destruct (f_disc f); [|reflexivity]. destruct x; reflexivity.
      * constructor; [|exact F]. exact C.
    + apply IH. exact H.
Qed.

Lemma reads_of_items (P : field -> pyval -> Prop) fs : forall l : list arg, map a_f l = filter visible fs ->
  Forall (fun a => (is_member (a_f a) = true /\ a_x a = PUndef) \/ P (a_f a) (a_x a)) l ->
  reads_of P fs (map a_x l).
Proof.
  induction fs as [|f r IH]; intros l E F; cbn [reads_of filter] in *; [exact I|].
  destruct (visible f); [|apply IH; assumption].
  destruct l as [|a l]; [discriminate E|]. cbn [map] in E. injection E as <- E. cbn [map].
  inversion F; subst. split; [assumption|]. apply IH; assumption.
Qed.

Lemma out_size_app a b : out_size (a ++ b) = out_size a + out_size b.
Proof.
  unfold out_size. rewrite fold_right_app. induction a as [|v a IH]; cbn [fold_right]; [lia|]. rewrite IH. lia.
Qed.

Lemma out_size_nonneg a : 0 <= out_size a.
Proof. induction a as [|v a IH]; cbn [out_size fold_right]; [lia|]. pose proof (blen_nonneg (content v)). unfold out_size in IH. lia. Qed.

(** ** Variables *)
Definition rest_vars (prefix : string) (f : field) : list string := tl (vars prefix f).
Definition ctags (prefix : string) (f : field) : list string := map curtag (unions_of prefix f).

Lemma vars_eq prefix f : vars prefix f = varname prefix (f_name f) :: rest_vars prefix f.
Proof. destruct f; reflexivity. Qed.

Lemma unions_of_group prefix n o dc nl u fs :
  unions_of prefix (FGroup n o dc nl u fs) =
  ((match u with Some _ => [varname prefix n] | None => [] end) ++
   flat_map (unions_of (varname prefix n)) (filter visible fs))%list.
Proof.
  cbn [unions_of]. f_equal. induction fs as [|g r IH]; [reflexivity|]. cbn [filter].
  destruct (visible g); cbn [flat_map]; rewrite IH; reflexivity.
Qed.

Lemma rest_vars_group prefix n o dc nl u fs :
  rest_vars prefix (FGroup n o dc nl u fs) =
  ((match u with Some _ => [curtag (varname prefix n)] | None => [] end) ++
   flat_map (vars (varname prefix n)) (filter visible fs))%list.
Proof. unfold rest_vars. cbn [vars tl f_name]. rewrite concat_of_flat. reflexivity. Qed.

Lemma map_flat {A B C} (g : B -> C) (h : A -> list B) l : map g (flat_map h l) = flat_map (fun a => map g (h a)) l.
Proof. induction l as [|a l IH]; [reflexivity|]. cbn [flat_map]. rewrite map_app, IH. reflexivity. Qed.

Lemma ctags_rest f : forall prefix c, In c (ctags prefix f) -> In c (rest_vars prefix f).
Proof.
  induction f as [n o dc t off ex d|n o dc nl u fs IH] using field_ind'; intros prefix c H; [destruct H|].
  unfold ctags in H. rewrite unions_of_group, map_app in H. rewrite rest_vars_group.
  apply in_or_app. apply in_app_or in H. destruct H as [H|H].
  - left. destruct u; exact H.
  - right. rewrite map_flat in H. apply in_flat_map in H. destruct H as (g & Hg & H).
    apply in_flat_map. exists g. split; [exact Hg|]. rewrite vars_eq. right.
    rewrite Forall_forall in IH. apply (IH g); [|exact H]. apply filter_In in Hg. apply Hg.
Qed.

Lemma NoDup_app_inv {A} (a b : list A) : NoDup (a ++ b) -> NoDup a /\ NoDup b /\ (forall x, In x a -> In x b -> False).
Proof.
  induction a as [|x a IH]; cbn [app]; intros H.
  - split; [constructor|]. split; [exact H|]. intros y [].
  - inversion H as [|? ? N H']; subst. destruct (IH H') as (A1 & A2 & A3). split.
    + constructor; [|exact A1]. intros I. apply N, in_or_app. auto.
    + split; [exact A2|]. intros y [<-|I1] I2; [|eapply A3; eassumption]. apply N, in_or_app. auto.
Qed.

(** heads and tails of disjoint lists *)
Lemma heads_tails {A B} (h : A -> B) (t : A -> list B) l c :
  NoDup (flat_map (fun a => h a :: t a) l) -> In c (map h l) -> In c (flat_map t l) -> False.
Proof.
  induction l as [|a l IH]; cbn [flat_map map In app]; intros N H1 H2; [destruct H1|].
  inversion N as [|? ? N1 N2]; subst. destruct (NoDup_app_inv _ _ N2) as (D1 & D2 & D3).
  assert (X : forall c, In c (map h l) -> In c (flat_map (fun a => h a :: t a) l)).
  { intros y Hy. apply in_map_iff in Hy. destruct Hy as (b & <- & Hb). apply in_flat_map. exists b. split; [exact Hb|]. left. reflexivity. }
  assert (Y : forall c, In c (flat_map t l) -> In c (flat_map (fun a => h a :: t a) l)).
  { intros y Hy. apply in_flat_map in Hy. destruct Hy as (b & Hb & Hy). apply in_flat_map. exists b. split; [exact Hb|]. right. exact Hy. }
  apply in_app_or in H2. destruct H1 as [<-|H1], H2 as [H2|H2].
  - apply N1, in_or_app. auto.
  - apply N1, in_or_app. right. apply Y. exact H2.
  - eapply D3; [exact H2|]. apply X. exact H1.
  - eapply IH; eassumption.
Qed.

Lemma set_all_ok vs : forall (e : env) xs, NoDup vs -> length vs = length xs ->
  exists e', set_all e vs xs = Some e' /\ (forall w, ~ In w vs -> e' w = e w) /\
    Forall2 (fun v x => e' v = Some x) vs xs.
Proof.
  induction vs as [|v vs IH]; intros e xs N L; (destruct xs as [|x xs]; [try discriminate L|try discriminate L]).
  - exists e. repeat split; auto.
  - inversion N as [|? ? N1 N2]; subst. injection L as L. destruct (IH (setv e v x) xs N2 L) as (e' & E & F & G).
    exists e'. cbn [set_all]. split; [exact E|]. split.
    + intros w Nw. rewrite F by (intros I; apply Nw; right; exact I). apply setv_other. intros ->. apply Nw. left. reflexivity.
    + constructor; [|exact G]. rewrite (F v N1). apply setv_same.
Qed.

(** ** The pointers that are filled *)
Lemma scalar_vals fuel t x vals : scalar t -> slot_arg fuel t x vals -> vals = [].
Proof. intros Sc H. destruct t; try destruct Sc; apply H. Qed.

Lemma slot_len fuel t (off : Z) x vals : slot_arg fuel t x vals ->
  combine (if ty_pointer t then [off] else []) vals = map (pair off) vals /\
  length (if ty_pointer t then [off] else []) = length vals.
Proof.
  intros H. destruct t; cbn [slot_arg ty_pointer] in *;
    first [contradiction | destruct H as (v & -> & _); split; reflexivity | destruct H as (_ & ->); split; reflexivity
          | subst vals; split; reflexivity].
Qed.

Lemma ws_items_gen (P : field -> pyval -> list value -> Prop) fs :
  forall l : list arg, map a_f l = filter visible fs ->
  Forall (fun a => skipped a \/ ((is_member (a_f a) = true -> a_x a <> PUndef) /\ P (a_f a) (a_x a) (a_v a))) l ->
  (forall f x v, In f fs -> P f x v -> length (ptr_slots f x) = length v) ->
  flat_map a_ws l = combine (slots_of ptr_slots fs (map a_x l)) (concat (map a_v l)) /\
  length (slots_of ptr_slots fs (map a_x l)) = length (concat (map a_v l)).
Proof.
  induction fs as [|f r IH]; intros l E F H; cbn [filter slots_of] in *.
  - destruct l; [|discriminate E]. split; reflexivity.
  - destruct (visible f).
    + destruct l as [|a l]; [discriminate E|]. cbn [map] in E. injection E as <- E. inversion F as [|? ? F1 F2]; subst.
      destruct (IH l E F2) as (I1 & I2). { intros g x v Ig. apply H. right. exact Ig. }
      cbn [flat_map map concat]. rewrite I1.
      assert (X : a_ws a = combine (if is_member (a_f a) && is_undef (a_x a) then [] else ptr_slots (a_f a) (a_x a)) (a_v a) /\
                  length (if is_member (a_f a) && is_undef (a_x a) then [] else ptr_slots (a_f a) (a_x a)) = length (a_v a)).
      { destruct F1 as [(M & U & V)|(NU & Pa)].
        - unfold a_ws. rewrite M, U, V. cbn [is_undef andb combine length]. split; [|reflexivity].
          destruct (ptr_slots (a_f a) PUndef); reflexivity.
        - replace (is_member (a_f a) && is_undef (a_x a)) with false.
          + split; [reflexivity|]. apply H; [left; reflexivity|exact Pa].
          + destruct (is_member (a_f a)); [|reflexivity]. specialize (NU eq_refl). destruct (a_x a); try reflexivity. congruence. }
      destruct X as (X1 & X2). rewrite X1. rewrite !app_length, X2, I2. split; [|reflexivity].
      set (s1 := if is_member (a_f a) && is_undef (a_x a) then [] else ptr_slots (a_f a) (a_x a)) in *. clear - X2. revert X2. generalize (a_v a). induction s1 as [|k s1 IHs]; intros [|v vs] X2; try discriminate X2; [reflexivity|].
      cbn [app combine]. f_equal. apply IHs. injection X2 as X2. exact X2.
    + apply IH; try assumption. intros g x v Ig. apply H. right. exact Ig.
Qed.

Lemma slots_len fuel ds ps f : forall x vals, field_ok ds ps f -> arg_ok fuel f x vals -> length (ptr_slots f x) = length vals.
Proof.
  induction f as [n o dc t off ex d|n o dc nl u fs IH] using field_ind'; intros x vals FO AO.
  - cbn [arg_ok ptr_slots] in *. eapply slot_len. exact AO.
  - cbn [field_ok] in FO. destruct FO as (_ & AF & NL). apply all_of_forall in AF. cbn [arg_ok ptr_slots] in *. destruct nl.
    + destruct NL as [_ (o1 & t1 & off1 & e1 & d1 & o2 & t2 & off2 & e2 & d2 & -> & _ & Sc)]. cbn [value_type] in AO.
      destruct AO as [[_ ->]|[_ AO]]; [reflexivity|]. rewrite (scalar_vals _ _ _ _ Sc AO). reflexivity.
    + destruct AO as (xs & -> & AO & _). destruct (args_of_items _ _ _ _ AO) as (l & LF & <- & <- & _ & LA).
      eapply ws_items_gen; [exact LF|exact LA|]. intros f x0 v If Pf. rewrite Forall_forall in *. apply (IH f If); auto.
Qed.

Lemma ws_items_ok fuel ds ps fs (l : list arg) : map a_f l = filter visible fs -> Forall (field_ok ds ps) fs ->
  Forall (fun a => skipped a \/ ((is_member (a_f a) = true -> a_x a <> PUndef) /\ arg_ok fuel (a_f a) (a_x a) (a_v a))) l ->
  flat_map a_ws l = combine (slots_of ptr_slots fs (map a_x l)) (concat (map a_v l)).
Proof.
  intros LF FO LA. eapply ws_items_gen; [exact LF|exact LA|]. intros f x v If Pf. rewrite Forall_forall in FO.
  eapply slots_len; [apply FO; exact If|exact Pf].
Qed.

(** ** Execution *)
Section Exec.
Variables ds ps : Z.
Hypothesis Hds : 0 <= ds < 2 ^ 16.
Hypothesis Hps : 0 <= ps < 2 ^ 16.
Variable fuel : nat.

Notation runs := (runs ds ps fuel).
Notation store := (store ds ps).
Notation valid := (valid ds ps).
Notation frame := (frame ds ps).
Notation agree := (agree ds ps).
Notation zero_on := (zero_on ds ps).
Notation good := (good ds).

Lemma same_trans l d vs d1 vs1 d2 vs2 : same l d vs d1 vs1 -> same l d1 vs1 d2 vs2 -> same l d vs d2 vs2.
Proof. destruct l; cbn [same]; congruence. Qed.

Lemma runs_seq (R1 R2 R : loc -> Prop) (V1 V2 V : string -> Prop) l1 l2 e buf d vs s1 s2 s w1 w2 w (Q1 Q2 Q : obj -> Prop) :
  runs R1 V1 l1 e buf d vs s1 w1 Q1 ->
  (forall e1 buf1 d1 vs1, store buf1 d1 vs1 -> blen buf1 = blen buf + s1 ->
     (forall w, V1 w -> e1 w = e w) -> frame R1 d vs d1 vs1 -> runs R2 V2 l2 e1 buf1 d1 vs1 s2 w2 Q2) ->
  (forall l, R1 l -> R2 l -> False) ->
  (forall l, R1 l -> R l) -> (forall l, R2 l -> R l) ->
  (forall w, V w -> V1 w /\ V2 w) -> s = s1 + s2 -> w = (w1 ++ w2)%list -> (forall o D VS, good o D VS -> Q1 o -> Q2 o -> Q o) ->
  runs R V (l1 ++ l2)%list e buf d vs s w Q.
Proof.
  intros (e1 & b1 & d1 & vs1 & E1 & S1 & L1 & W1 & F1 & Q1' & T1 & C1) H DJ HR1 HR2 HV -> -> HQ.
  destruct (H e1 b1 d1 vs1 S1 L1 W1 F1) as (e2 & b2 & d2 & vs2 & E2 & S2 & L2 & W2 & F2 & Q2' & T2 & C2).
  exists e2, b2, d2, vs2. split; [|split; [exact S2|split; [lia|split; [|split; [|split; [|split; [intros tr T; rewrite app_assoc; apply T2, T1, T|eapply csim_app; eassumption]]]]]]].
  - rewrite exec_app, E1. exact E2.
  - intros w Hw. destruct (HV w Hw) as [H1 H2]. rewrite (W2 w H2). apply W1. exact H1.
  - intros l V' N. eapply same_trans; [apply F1|apply F2]; auto.
  - intros o D VS G A. eapply HQ; [exact G| |].
    + eapply Q1'; [exact G|]. intros l V' Rl. eapply same_trans; [apply F2; eauto|apply A; auto].
    + eapply Q2'; [exact G|]. intros l V' Rl. apply A; auto.
Qed.

Lemma runs_weaken (R R' : loc -> Prop) (V V' : string -> Prop) l e buf d vs s w (Q Q' : obj -> Prop) :
  runs R V l e buf d vs s w Q -> (forall l, R l -> R' l) -> (forall w, V' w -> V w) ->
  (forall o D VS, good o D VS -> Q o -> Q' o) -> runs R' V' l e buf d vs s w Q'.
Proof.
  intros (e1 & b1 & d1 & vs1 & E1 & S1 & L1 & W1 & F1 & Q1' & T1) HR HV HQ.
  exists e1, b1, d1, vs1. split; [exact E1|]. split; [exact S1|]. split; [exact L1|]. split; [auto|]. split; [|split; [|exact T1]].
  - intros l0 V0 N. apply F1; auto.
  - intros o D VS G A. eapply HQ; [exact G|]. eapply Q1'; [exact G|]. intros l0 V0 Rl. apply A; auto.
Qed.

Lemma runs_nil (V : string -> Prop) (R : loc -> Prop) e buf d vs (Q : obj -> Prop) : store buf d vs -> (forall o D VS, good o D VS -> Q o) ->
  runs R V [] e buf d vs 0 [] Q.
Proof.
  intros S HQ. exists e, buf, d, vs. split; [reflexivity|]. split; [exact S|]. split; [lia|]. split; [auto|]. split; [|split; [|split; [intros tr T; rewrite app_nil_r; exact T|apply csim_nil]]].
  - intros l _ _. apply same_refl.
  - intros o D VS G _. eapply HQ. exact G.
Qed.

(** the tag of a union *)
Lemma tag_exec u dd name (e : env) buf d vs :
  0 <= u -> 16 * u + 16 <= 64 * ds -> 0 <= dd < 2 ^ 15 ->
  e "builder" = Some PBuilder -> e (curtag name) = Some PNone -> curtag name <> "builder" -> store buf d vs ->
  runs (tag_region (Some u)) (fun w => w <> curtag name) [SCheckTag (curtag name); STag (u * 2) dd] e buf d vs 0 []
    (fun o => which o (Some u) = Ok dd).
Proof.
  intros Hu Hb Hd Eb Ec N S. pose proof (st_len _ _ _ _ _ S).
  assert (Hf : in_fmt Fh dd) by (unfold in_fmt; change (fmin Fh) with (- 2 ^ 15); change (fmax Fh) with (2 ^ 15 - 1); lia).
  destruct (put_scalar ds ps Hps Fh buf d vs (u * 2) dd S Hf) as (W & (S' & TS) & F & R); cbn [fsize]; try lia.
  cbn [fsize] in *. replace (8 * (u * 2)) with (16 * u) in * by lia. change (8 * 2) with 16 in *.
  exists (setv e (curtag name) POther), (upd buf (u * 2) (fenc Fh dd)), (upd d (u * 2) (fenc Fh dd)), vs.
  split; [|split; [exact S'|split; [|split; [|split; [exact F|split; [|split; [intros tr T; rewrite app_nil_r; apply TS; exact T|]]]]]]].
  - cbn [exec exec_stmt]. unfold lookup. rewrite Ec. cbn [bind exec exec_stmt]. unfold the_builder.
    rewrite setv_other by congruence. rewrite Eb. cbn [bind]. rewrite W. reflexivity.
  - rewrite blen_upd; rewrite ?blen_fenc; cbn [fsize]; lia.
  - intros w Nw. apply setv_other. exact Nw.
  - intros o D VS G A. unfold which, o_which. exact (R o D VS G A).
  - intros junk trunc st RC. destruct (Rc_store buf st (u * 2) (fenc Fh dd) RC) as (st' & W' & RC'); [lia|rewrite blen_fenc; cbn [fsize]; lia|].
    exists st'. split; [|exact RC']. cbn [c_exec c_exec_stmt]. unfold lookup. rewrite Ec. cbn [bind c_exec c_exec_stmt]. unfold the_builder.
    rewrite setv_other by congruence. rewrite Eb. cbn [bind]. rewrite W'. reflexivity.
Qed.

(** What is proved for every field *)
Definition ok_field (f : field) : Prop :=
  forall prefix (e : env) buf d vs x vals,
    field_ok ds ps f -> NoDup ("builder" :: "pos" :: vars prefix f) ->
    e "builder" = Some PBuilder -> e "pos" = Some (PInt 0) ->
    e (varname prefix (f_name f)) = Some x ->
    (forall c, In c (ctags prefix f) -> e c = Some PNone) ->
    arg_ok fuel f x vals -> store buf d vs -> zero_on (region f) d ->
    blen buf + out_size vals <= 2 ^ 32 ->
    runs (region f) (fun w => ~ In w (vars prefix f)) (emit_body ds prefix f) e buf d vs (out_size vals) (combine (ptr_slots f x) vals)
      (fun o => forall u, ensure_union o u f = Ok tt -> field_reads o u f x).

(** The places that the arguments write *)
Definition wregion (l : list arg) (p : loc) : Prop :=
  exists a, In a l /\ (is_member (a_f a) = false \/ a_x a <> PUndef) /\ region (a_f a) p.
Definition uregion (u : option Z) (l : list arg) (p : loc) : Prop :=
  wregion l p \/ (flat_map a_given l <> [] /\ tag_region u p).

Lemma ifdef_exec v body (e : env) buf x : e v = Some x -> x <> PUndef ->
  exec_stmt fuel (SIfDef v body) (e, buf) = exec fuel body (e, buf).
Proof.
  intros Ev N. cbn [exec_stmt]. unfold lookup. rewrite Ev. cbn [bind].
  assert (G : forall l st, (fix go l st := match l with
                             | [] => Ok st
                             | s :: r => do st <- exec_stmt fuel s st; go r st
                             end) l st = exec fuel l st).
  { induction l as [|s l IH]; intros st; [reflexivity|]. cbn [exec]. destruct (exec_stmt fuel s st); [|reflexivity].
    cbn [bind]. apply IH. }
  destruct x; try apply G. congruence.
Qed.

Lemma ifdef_csim v body (e : env) buf x e' buf' : e v = Some x -> x <> PUndef -> csim fuel body e buf e' buf' ->
  csim fuel [SIfDef v body] e buf e' buf'.
Proof.
  intros Ev N C. apply csim_one. intros junk trunc st R. destruct (C junk trunc st R) as (st' & E & R'). exists st'. split; [|exact R'].
  cbn [c_exec_stmt]. unfold lookup. rewrite Ev. cbn [bind].
  assert (G : forall l st, (fix go l st := match l with
                             | [] => Ok st
                             | s :: r => do st <- c_exec_stmt junk trunc fuel s st; go r st
                             end) l st = c_exec junk trunc fuel l st).
  { induction l as [|s l IH]; intros st0; [reflexivity|]. cbn [c_exec]. destruct (c_exec_stmt junk trunc fuel s st0); [|reflexivity].
    cbn [bind]. apply IH. }
  destruct x; try (rewrite <- E; apply G). congruence.
Qed.

Lemma a_given_member a d : f_disc (a_f a) = Some d -> a_x a <> PUndef -> a_given a = [d].
Proof. unfold a_given. intros -> N. destruct (a_x a); congruence. Qed.

Lemma a_given_none a : is_member (a_f a) = false \/ a_x a = PUndef -> a_given a = [].
Proof. unfold a_given, is_member. destruct (f_disc (a_f a)); [|reflexivity]. intros [H| ->]; [discriminate|reflexivity]. Qed.

Lemma scope_exec name prefix u : forall (l : list arg) (e : env) buf d vs,
  (forall u', u = Some u' -> 0 <= u' /\ 16 * u' + 16 <= 64 * ds) ->
  (u = None -> Forall (fun a => f_disc (a_f a) = None) l) ->
  Forall (fun a => field_ok ds ps (a_f a)) l -> Forall (fun a => ok_field (a_f a)) l ->
  ForallOrdPairs (fun f g => (is_member f = true /\ is_member g = true) \/ apart f g) (map a_f l) ->
  Forall (fun a => forall p, tag_region u p -> region (a_f a) p -> False) l ->
  Forall (fun a => forall dd, f_disc (a_f a) = Some dd -> 0 <= dd < 2 ^ 15) l ->
  NoDup ("builder" :: "pos" :: (match u with Some _ => [curtag name] | None => [] end ++
         flat_map (fun a => vars prefix (a_f a)) l)%list) ->
  e "builder" = Some PBuilder -> e "pos" = Some (PInt 0) ->
  Forall (fun a => e (varname prefix (f_name (a_f a))) = Some (a_x a)) l ->
  (forall a c, In a l -> In c (ctags prefix (a_f a)) -> e c = Some PNone) ->
  (length (flat_map a_given l) <= 1)%nat ->
  (flat_map a_given l <> [] -> e (curtag name) = Some PNone) ->
  Forall (fun a => skipped a \/ ((is_member (a_f a) = true -> a_x a <> PUndef) /\ arg_ok fuel (a_f a) (a_x a) (a_v a))) l ->
  store buf d vs -> zero_on (wregion l) d -> blen buf + out_size (concat (map a_v l)) <= 2 ^ 32 ->
  runs (uregion u l) (fun w => ~ In w (flat_map (fun a => vars prefix (a_f a)) l) /\
                               (flat_map a_given l <> [] -> ~ In w (match u with Some _ => [curtag name] | None => [] end)))
    (flat_map (emit_field ds (uctx name u) prefix) (map a_f l)) e buf d vs (out_size (concat (map a_v l))) (flat_map a_ws l)
    (fun o => Forall (fun a => (is_member (a_f a) = true /\ a_x a = PUndef) \/ field_reads o u (a_f a) (a_x a)) l /\
              (forall dd, flat_map a_given l = [dd] -> which o u = Ok dd)).
Proof.
  intros l. induction l as [|a l IH];
    intros e buf d vs Hu Hn FO OK AP TG DR ND Eb Ep Ev Ec GL Et AR S Z0 Hl.
  { cbn [map flat_map]. apply runs_nil; [exact S|]. intros o D VS _. split; [constructor|]. intros dd H; discriminate H. }
  cbn [map flat_map concat] in *.
  inversion FO as [|? ? FO1 FO2]; subst. inversion OK as [|? ? OK1 OK2]; subst.
  inversion AP as [|? ? AP1 AP2]; subst. inversion TG as [|? ? TG1 TG2]; subst. inversion DR as [|? ? DR1 DR2]; subst.
  inversion Ev as [|? ? Ev1 Ev2]; subst. inversion AR as [|? ? AR1 AR2]; subst.
  rewrite out_size_app in Hl. pose proof (out_size_nonneg (a_v a)). pose proof (out_size_nonneg (concat (map a_v l))).
  assert (Hn2 : u = None -> Forall (fun a => f_disc (a_f a) = None) l) by (intros X; specialize (Hn X); inversion Hn; assumption).
  (* names *)
  set (ct := match u with Some _ => [curtag name] | None => [] end) in *.
  assert (NDb : ~ In "builder" (vars prefix (a_f a)) /\ ~ In "pos" (vars prefix (a_f a)) /\ ~ In "builder" ct).
  { inversion ND as [|? ? N1 N2]; subst. inversion N2 as [|? ? N3 N4]; subst.
    repeat split; intros I.
    - apply N1. right. apply in_or_app. right. apply in_or_app. auto.
    - apply N3. apply in_or_app. right. apply in_or_app. auto.
    - apply N1. right. apply in_or_app. auto. }
  destruct NDb as (Nb1 & Nb2 & Nb3).
  assert (ND1 : NoDup ("builder" :: "pos" :: vars prefix (a_f a))).
  { inversion ND as [|? ? N1 N2]; subst. inversion N2 as [|? ? N3 N4]; subst.
    destruct (NoDup_app_inv _ _ N4) as (D1 & D2 & D3). destruct (NoDup_app_inv _ _ D2) as (D4 & D5 & D6).
    constructor; [|constructor; [exact Nb2|exact D4]]. intros [X|X]; [discriminate X|]. exact (Nb1 X). }
  assert (ND2 : NoDup ("builder" :: "pos" :: (ct ++ flat_map (fun a => vars prefix (a_f a)) l)%list)).
  { inversion ND as [|? ? N1 N2]; subst. inversion N2 as [|? ? N3 N4]; subst.
    destruct (NoDup_app_inv _ _ N4) as (D1 & D2 & D3). destruct (NoDup_app_inv _ _ D2) as (D4 & D5 & D6).
    assert (SUB : forall w, In w (ct ++ flat_map (fun a => vars prefix (a_f a)) l)%list ->
                  In w (ct ++ vars prefix (a_f a) ++ flat_map (fun a => vars prefix (a_f a)) l)%list).
    { intros w Hw. apply in_or_app. apply in_app_or in Hw. destruct Hw as [Hw|Hw]; [auto|]. right. apply in_or_app. auto. }
    constructor; [|constructor].
    - intros [X|X]; [discriminate X|]. apply N1. right. apply SUB. exact X.
    - intros X. apply N3. apply SUB. exact X.
    - assert (M : forall (p q : list string), NoDup p -> NoDup q -> (forall x, In x p -> In x q -> False) -> NoDup (p ++ q)%list).
      { induction p as [|x p IHp]; intros q Np Nq Dj; [exact Nq|]. inversion Np; subst. cbn [app]. constructor.
        - intros I. apply in_app_or in I. destruct I as [I|I]; [contradiction|]. eapply Dj; [left; reflexivity|exact I].
        - apply IHp; auto. intros y I1 I2. eapply Dj; [right; exact I1|exact I2]. }
      apply M; auto. intros x I1 I2. eapply D3; [exact I1|]. apply in_or_app. auto. }
  assert (DJV : forall w, In w (vars prefix (a_f a)) -> In w (ct ++ flat_map (fun a => vars prefix (a_f a)) l)%list -> False).
  { inversion ND as [|? ? N1 N2]; subst. inversion N2 as [|? ? N3 N4]; subst.
    destruct (NoDup_app_inv _ _ N4) as (D1 & D2 & D3). destruct (NoDup_app_inv _ _ D2) as (D4 & D5 & D6).
    intros w I1 I2. apply in_app_or in I2. destruct I2 as [I2|I2].
    - eapply D3; [exact I2|]. apply in_or_app. auto.
    - eapply D6; eassumption. }
  assert (CTV : forall c w, In c l -> w = varname prefix (f_name (a_f c)) \/ In w (ctags prefix (a_f c)) ->
                In w (flat_map (fun a => vars prefix (a_f a)) l)).
  { intros c w Ic Hw. apply in_flat_map. exists c. split; [exact Ic|]. rewrite vars_eq.
    destruct Hw as [-> |Hw]; [left; reflexivity|]. right. apply ctags_rest. exact Hw. }
  assert (NCT : forall c w, In c l -> w = varname prefix (f_name (a_f c)) \/ In w (ctags prefix (a_f c)) ->
                In w ct -> False).
  { intros c w Ic Hw Hct. inversion ND2 as [|? ? N1 N2]; subst. inversion N2 as [|? ? N3 N4]; subst.
    destruct (NoDup_app_inv _ _ N4) as (D1 & D2 & D3). eapply D3; [exact Hct|]. eapply CTV; eassumption. }
  (* the tail, in any state where the head only touched its own things *)
  assert (TAIL : forall e1 buf1 d1 vs1, store buf1 d1 vs1 -> blen buf1 = blen buf + out_size (a_v a) ->
     (forall w, ~ In w (vars prefix (a_f a)) -> (a_given a <> [] -> ~ In w ct) -> e1 w = e w) ->
     (forall p, valid p -> wregion l p -> same p d vs d1 vs1) ->
     runs (uregion u l) (fun w => ~ In w (flat_map (fun a => vars prefix (a_f a)) l) /\ (flat_map a_given l <> [] -> ~ In w ct))
       (flat_map (emit_field ds (uctx name u) prefix) (map a_f l)) e1 buf1 d1 vs1 (out_size (concat (map a_v l))) (flat_map a_ws l)
       (fun o => Forall (fun a => (is_member (a_f a) = true /\ a_x a = PUndef) \/ field_reads o u (a_f a) (a_x a)) l /\
              (forall dd, flat_map a_given l = [dd] -> which o u = Ok dd))).
  { intros e1 buf1 d1 vs1 S1 L1 W1 F1. apply IH; try assumption; try lia.
    - rewrite W1; [exact Eb|exact Nb1|auto].
    - rewrite W1; [exact Ep|exact Nb2|]. intros _ I. inversion ND2 as [|? ? N1 N2]; subst. inversion N2 as [|? ? N3 N4]; subst.
      apply N3, in_or_app. auto.
    - rewrite Forall_forall in *. intros c Ic. rewrite <- (Ev2 c Ic). apply W1.
      + intros I. eapply DJV; [exact I|]. apply in_or_app. right. eapply CTV; [exact Ic|auto].
      + intros _ I. eapply NCT; [exact Ic|left; reflexivity|exact I].
    - intros c w Ic Iw. rewrite <- (Ec c w (or_intror Ic) Iw). apply W1.
      + intros I. eapply DJV; [exact I|]. apply in_or_app. right. eapply CTV; [exact Ic|auto].
      + intros _ I. eapply NCT; [exact Ic|right; exact Iw|exact I].
    - rewrite app_length in GL. lia.
    - intros NE. rewrite <- Et.
      2:{ intros X. apply app_eq_nil in X. tauto. }
      assert (GN : a_given a = []).
      { destruct (a_given a); [reflexivity|]. destruct (flat_map a_given l); [congruence|]. rewrite app_length in GL. cbn [length] in GL. lia. }
      apply W1; [|congruence]. intros I. destruct u as [u'|].
      + eapply DJV; [exact I|]. apply in_or_app. left. left. reflexivity.
      + exfalso. apply NE. specialize (Hn2 eq_refl). clear - Hn2. induction l as [|c l IHl]; [reflexivity|].
        inversion Hn2; subst. cbn [flat_map]. rewrite IHl by assumption. rewrite a_given_none; [reflexivity|].
        left. unfold is_member. rewrite H1. reflexivity.
    - intros i V (c & Ic & Hc & Rc). specialize (F1 (LBit i) V (ex_intro _ c (conj Ic (conj Hc Rc)))). cbn [same] in F1.
      rewrite <- F1. apply Z0; [exact V|]. exists c. split; [right; exact Ic|auto]. }
  (* the head does not overlap what the tail writes *)
  assert (HT : ~ skipped a -> forall p, region (a_f a) p -> wregion l p -> (is_member (a_f a) = true -> a_x a <> PUndef) -> False).
  { intros NS p Rp (c & Ic & Wc & Rc) NU. rewrite Forall_forall in AP1.
    destruct (AP1 (a_f c)) as [[M1 M2]|AA]; [apply in_map; exact Ic| |exact (AA p Rp Rc)].
    destruct Wc as [Wc|Wc]; [congruence|].
    assert (X : forall b, is_member (a_f b) = true -> a_x b <> PUndef -> exists dd, a_given b = [dd]).
    { intros b Mb Ub. unfold is_member in Mb. destruct (f_disc (a_f b)) as [dd|] eqn:Fd; [|discriminate]. exists dd.
      apply a_given_member; assumption. }
    destruct (X a M1 (NU M1)) as (d1 & G1). destruct (X c M2 Wc) as (d2 & G2).
    rewrite G1 in GL. cbn [app length] in GL. assert (In d2 (flat_map a_given l)) as I2.
    { apply in_flat_map. exists c. split; [exact Ic|]. rewrite G2. left. reflexivity. }
    destruct (flat_map a_given l); [destruct I2|cbn [length] in GL; lia]. }
  assert (HTT : forall p, region (a_f a) p -> tag_region u p -> False) by (intros p Rp Tp; exact (TG1 p Tp Rp)).
  assert (TWT : forall p, tag_region u p -> wregion l p -> False).
  { intros p Tp (c & Ic & _ & Rc). rewrite Forall_forall in TG2. exact (TG2 c Ic p Tp Rc). }
  rewrite out_size_app. rewrite emit_field_eq.
  destruct AR1 as [SK|[NU AO]].
  - (* a member that is not given *)
    pose proof SK as (M & UD & NV). unfold is_member in M. destruct (f_disc (a_f a)) as [dd|] eqn:FD; [|discriminate].
    assert (GA : a_given a = []) by (apply a_given_none; auto). rewrite GA. cbn [app]. rewrite NV. cbn [out_size fold_right].
    destruct u as [u'|]. 2:{ specialize (Hn eq_refl). inversion Hn; congruence. }
    cbn [uctx]. destruct (TAIL e buf d vs S) as (e1 & b1 & d1 & vs1 & E1 & S1 & L1 & W1 & F1 & Q1' & T1 & C1).
    { rewrite NV. cbn [out_size fold_right]. lia. } { auto. } { intros p _ _. apply same_refl. }
    exists e1, b1, d1, vs1. split; [|split; [exact S1|split; [unfold out_size in *; lia|split; [|split; [|split; [|split]]]]]].
    + cbn [app exec exec_stmt]. unfold lookup. rewrite Ev1, UD. cbn [bind]. exact E1.
    + intros w [Nw Nc]. apply W1. split; [|exact Nc]. intros I. apply Nw. apply in_or_app. auto.
    + intros p V N. apply F1; [exact V|]. intros [(c & Ic & C)|[X1 X2]]; apply N.
      * left. exists c. split; [right; exact Ic|exact C].
      * right. split; [|exact X2]. cbn [flat_map]. rewrite GA. exact X1.
    + intros o D VS G A. destruct (Q1' o D VS G) as (Q1 & Q2).
      { intros p V [(c & Ic & C)|[X1 X2]]; apply A; auto.
        - left. exists c. split; [right; exact Ic|exact C].
        - right. split; [|exact X2]. cbn [flat_map]. rewrite GA. exact X1. }
      split; [|exact Q2]. constructor; [|exact Q1]. left. unfold is_member. rewrite FD. auto.
    + intros tr T. unfold a_ws. rewrite NV. replace (combine (ptr_slots (a_f a) (a_x a)) (@nil value)) with (@nil (Z * value)) by (destruct (ptr_slots (a_f a) (a_x a)); reflexivity).
      apply T1. exact T.
    + intros junk trunc st RC. destruct (C1 junk trunc st RC) as (st' & EC & RC'). exists st'. split; [|exact RC'].
      cbn [app c_exec c_exec_stmt]. unfold lookup. rewrite Ev1, UD. cbn [bind]. exact EC.
  - assert (NS : ~ skipped a) by (intros (M & UD & _); exact (NU M UD)).
    assert (Za : zero_on (region (a_f a)) d).
    { intros i V Ri. apply Z0; [exact V|]. exists a. split; [left; reflexivity|]. split; [|exact Ri].
      destruct (is_member (a_f a)); [right; auto|left; reflexivity]. }
    assert (WA : forall p, region (a_f a) p -> wregion (a :: l) p).
    { intros p Rp. exists a. split; [left; reflexivity|]. split; [|exact Rp].
      destruct (is_member (a_f a)); [right; auto|left; reflexivity]. }
    assert (WL : forall p, wregion l p -> wregion (a :: l) p).
    { intros p (c & Ic & C). exists c. split; [right; exact Ic|exact C]. }
    assert (Ec1 : forall c, In c (ctags prefix (a_f a)) -> e c = Some PNone) by (intros c Ic; apply (Ec a c); [left; reflexivity|exact Ic]).
    destruct (f_disc (a_f a)) as [dd|] eqn:FD.
    + (* the member that is given *)
      assert (M : is_member (a_f a) = true) by (unfold is_member; rewrite FD; reflexivity).
      pose proof (a_given_member a dd FD (NU M)) as GA.
      assert (GT : flat_map a_given l = []).
      { rewrite GA in GL. destruct (flat_map a_given l); [reflexivity|]. cbn [app length] in GL. lia. }
      rewrite GA, GT in *. cbn [app] in *.
      destruct u as [u'|]. 2:{ specialize (Hn eq_refl). inversion Hn; congruence. }
      destruct (Hu u' eq_refl) as [Hu1 Hu2]. cbn [uctx].
      assert (Et' : e (curtag name) = Some PNone) by (apply Et; discriminate).
      assert (Nbc : curtag name <> "builder") by (intros X; apply Nb3; left; exact X).
      assert (HEAD : runs (fun p => tag_region (Some u') p \/ region (a_f a) p)
                 (fun w => w <> curtag name /\ ~ In w (vars prefix (a_f a)))
                 [SIfDef (varname prefix (f_name (a_f a))) (SCheckTag (curtag name) :: STag (u' * 2) dd :: emit_body ds prefix (a_f a))]
                 e buf d vs (out_size (a_v a)) (a_ws a)
                 (fun o => which o (Some u') = Ok dd /\ forall u, ensure_union o u (a_f a) = Ok tt -> field_reads o u (a_f a) (a_x a))).
      { assert (B : runs (fun p => tag_region (Some u') p \/ region (a_f a) p)
                 (fun w => w <> curtag name /\ ~ In w (vars prefix (a_f a)))
                 ([SCheckTag (curtag name); STag (u' * 2) dd] ++ emit_body ds prefix (a_f a))%list
                 e buf d vs (out_size (a_v a)) (a_ws a)
                 (fun o => which o (Some u') = Ok dd /\ forall u, ensure_union o u (a_f a) = Ok tt -> field_reads o u (a_f a) (a_x a))).
        { eapply runs_seq with (Q1 := fun o => which o (Some u') = Ok dd)
            (Q2 := fun o => forall u, ensure_union o u (a_f a) = Ok tt -> field_reads o u (a_f a) (a_x a))
            (R1 := tag_region (Some u')) (R2 := region (a_f a)) (V1 := fun w => w <> curtag name)
            (V2 := fun w => ~ In w (vars prefix (a_f a))) (s1 := 0) (s2 := out_size (a_v a)) (w1 := []) (w2 := a_ws a).
          - apply tag_exec; auto.
          - intros e1 buf1 d1 vs1 S1 L1 W1 F1. apply OK1; auto.
            + rewrite W1; [exact Eb|congruence].
            + rewrite W1; [exact Ep|]. intros X. inversion ND as [|? ? N1 N2]; subst. inversion N2 as [|? ? N3 N4]; subst.
              apply N3. left. symmetry. exact X.
            + rewrite W1; [exact Ev1|]. intros X. eapply (DJV (curtag name)); [|apply in_or_app; left; left; reflexivity].
              rewrite vars_eq. left. exact X.
            + intros c Ic. rewrite W1; [apply Ec1; exact Ic|]. intros ->. eapply (DJV (curtag name)); [|apply in_or_app; left; left; reflexivity].
              rewrite vars_eq. right. apply ctags_rest. exact Ic.
            + intros i V Ri. specialize (F1 (LBit i) V). cbn [same] in F1. rewrite <- F1; [apply Za; assumption|].
              intros Ti. exact (HTT _ Ri Ti).
            + lia.
          - intros p T Rp. exact (HTT p Rp T).
          - auto.
          - auto.
          - intros w Hw; exact Hw.
          - lia.
          - reflexivity.
          - auto. }
        destruct B as (e1 & b1 & d1 & vs1 & E1 & B2 & B3 & B4 & B5 & B6 & B7 & B8). exists e1, b1, d1, vs1.
        split; [|repeat (split; [assumption|]); eapply ifdef_csim; [exact Ev1|exact (NU M)|exact B8]].
        cbn [exec]. rewrite (ifdef_exec _ _ e buf _ Ev1 (NU M)).
        cbn [app] in E1. change (do st <- exec fuel (SCheckTag (curtag name) :: STag (u' * 2) dd :: emit_body ds prefix (a_f a)) (e, buf);
          exec fuel [] st = Ok (e1, b1)). rewrite E1. reflexivity. }
      eapply runs_seq with (R2 := uregion (Some u') l) (s2 := out_size (concat (map a_v l))) (w2 := flat_map a_ws l); [exact HEAD| | | | | |reflexivity|reflexivity|].
      * intros e1 buf1 d1 vs1 S1 L1 W1 F1. apply TAIL; auto.
        -- intros w N1 N2. apply W1. split; [|exact N1]. intros ->. apply N2; [congruence|]. left. reflexivity.
        -- intros p V Wp. apply F1; [exact V|]. intros [T|T]; [exact (TWT p T Wp)|exact (HT NS p T Wp NU)].
      * intros p [T|T] [W|[X _]]; try congruence; [exact (TWT p T W)|exact (HT NS p T W NU)].
      * intros p [T|T]; [right; split; [|exact T]|left; apply WA; exact T]. cbn [flat_map]. rewrite GA. discriminate.
      * intros p [W|[X _]]; [|congruence]. left. apply WL. exact W.
      * intros w [Nw Nc]. split; [split|].
        -- intros ->. apply Nc; [congruence|]. left. reflexivity.
        -- intros I. apply Nw. apply in_or_app. auto.
        -- split; [|congruence]. intros I. apply Nw. apply in_or_app. auto.
      * intros o D VS G [W1 Q1] [Q2 _]. split; [constructor; [|exact Q2]|].
        -- right. apply Q1. unfold ensure_union. rewrite FD. unfold o_ensure_union. unfold which in W1. rewrite W1.
           cbn [bind]. rewrite Z.eqb_refl. reflexivity.
        -- intros d' E. injection E as <-. exact W1.
    + (* not a member *)
      assert (M : is_member (a_f a) = false) by (unfold is_member; rewrite FD; reflexivity).
      assert (GA : a_given a = []) by (apply a_given_none; auto).
      rewrite GA in *. cbn [app] in *.
      eapply runs_seq with (R1 := region (a_f a)) (R2 := uregion u l) (s1 := out_size (a_v a))
         (s2 := out_size (concat (map a_v l))) (w1 := a_ws a) (w2 := flat_map a_ws l) (V1 := fun w => ~ In w (vars prefix (a_f a)))
         (Q1 := fun o => forall u, ensure_union o u (a_f a) = Ok tt -> field_reads o u (a_f a) (a_x a));
        [apply OK1; try assumption; lia| | | | | |reflexivity|reflexivity|].
      * intros e1 buf1 d1 vs1 S1 L1 W1 F1. apply TAIL; auto.
        intros p V Wp. apply F1; [exact V|]. intros T. exact (HT NS p T Wp NU).
      * intros p T [W|[_ X]]; [exact (HT NS p T W NU)|exact (HTT p T X)].
      * intros p T. left. apply WA. exact T.
      * intros p [W|[X T]]; [left; apply WL; exact W|right]. split; [|exact T]. cbn [flat_map]. rewrite GA. exact X.
      * intros w [Nw Nc]. split; [|split; [|exact Nc]]; intros I; apply Nw; apply in_or_app; auto.
      * intros o D VS G Q1 [Q2 Q3]. split; [constructor; [|exact Q2]|exact Q3]. right. apply Q1.
        unfold ensure_union. rewrite FD. reflexivity.
Qed.

Lemma fop_filter {A} (P : A -> A -> Prop) (b : A -> bool) l : ForallOrdPairs P l -> ForallOrdPairs P (filter b l).
Proof.
  induction 1 as [|a l H1 H2 IH]; [constructor|]. cbn [filter]. destruct (b a); [|exact IH].
  constructor; [|exact IH]. rewrite Forall_forall in *. intros x Hx. apply filter_In in Hx. apply H1, Hx.
Qed.

Lemma in_discs f d fs : In f fs -> f_disc f = Some d -> In d (discs fs).
Proof. intros I E. apply in_flat_map. exists f. split; [exact I|]. rewrite E. left. reflexivity. Qed.

Lemma fdec_zeros f n : 0 <= n -> fdec f (zeros n) = 0.
Proof.
  intros H. assert (E : le_dec (zeros n) = 0).
  { unfold zeros. induction (Z.to_nat n) as [|k IH]; cbn [repeat le_dec]; [reflexivity|]. rewrite IH. reflexivity. }
  unfold fdec. rewrite E. destruct f; reflexivity.
Qed.

Lemma tag_zero u o D VS : 0 <= u -> 16 * u + 16 <= 64 * ds -> good o D VS ->
  (forall i, 16 * u <= i < 16 * u + 16 -> bit_at D i = false) -> which o (Some u) = Ok 0.
Proof.
  intros Hu Hb (O & LD & _) Z0. unfold which, o_which.
  rewrite (o_read_primitive_spec o D VS (u * 2) Fh O) by (cbn [fsize]; lia). f_equal. unfold v_prim. cbn [fsize].
  replace (blen D <=? u * 2) with false by (symmetry; lia).
  assert (LZ : blen (zeros (8 * ds)) = 8 * ds) by (apply blen_zeros; lia).
  rewrite (bits_sub D (zeros (8 * ds))); try lia.
  - rewrite sub_zeros by lia. apply fdec_zeros. lia.
  - intros j Hj. rewrite Z0 by lia. unfold bit_at, zeros, getb. rewrite nth_repeat. symmetry. apply Z.testbit_0_l.
Qed.

(** All the fields of a struct or of a group *)
Lemma scope_full name prefix u fs xs vals (e : env) buf d vs :
  scope_ok ds u fs -> Forall (field_ok ds ps) fs -> Forall ok_field fs ->
  NoDup ("builder" :: "pos" :: (match u with Some _ => [curtag name] | None => [] end ++
         flat_map (vars prefix) (filter visible fs))%list) ->
  e "builder" = Some PBuilder -> e "pos" = Some (PInt 0) ->
  Forall2 (fun v x => e v = Some x) (map (fun g => varname prefix (f_name g)) (filter visible fs)) xs ->
  (forall f c, In f (filter visible fs) -> In c (ctags prefix f) -> e c = Some PNone) ->
  (u <> None -> e (curtag name) = Some PNone) ->
  args_of (arg_ok fuel) fs xs vals -> (length (given fs xs) <= 1)%nat ->
  store buf d vs -> zero_on (fun p => tag_region u p \/ some_of (fun g => region g p) fs) d ->
  blen buf + out_size vals <= 2 ^ 32 ->
  runs (fun p => tag_region u p \/ some_of (fun g => region g p) fs)
    (fun w => ~ In w (match u with Some _ => [curtag name] | None => [] end ++ flat_map (vars prefix) (filter visible fs))%list)
    (emit_fields ds (uctx name u) prefix fs) e buf d vs (out_size vals) (combine (slots_of ptr_slots fs xs) vals)
    (fun o => scope_reads o u fs xs).
Proof.
  intros (SP & SU & SN & ST & SD & SDD) FO OK ND Eb Ep Ev Ec Et AO GL S Z0 Hl.
  destruct (args_of_items _ _ _ _ AO) as (l' & LF & LX & LV & LG & LA).
  assert (IN : forall a, In a l' -> In (a_f a) fs).
  { intros a Ia. apply (in_map a_f) in Ia. rewrite LF in Ia. apply filter_In in Ia. apply Ia. }
  assert (FM : forall (B : Type) (h : field -> list B), flat_map (fun a => h (a_f a)) l' = flat_map h (filter visible fs)).
  { intros B h. rewrite <- LF. clear. induction l' as [|a l' IH]; [reflexivity|]. cbn [flat_map map]. rewrite IH. reflexivity. }
  assert (WS : forall p, wregion l' p -> some_of (fun g => region g p) fs).
  { intros p (a & Ia & _ & Ra). apply some_of_in. exists (a_f a). split; [apply IN; exact Ia|exact Ra]. }
  assert (US : forall p, uregion u l' p -> tag_region u p \/ some_of (fun g => region g p) fs).
  { intros p [W|[_ T]]; [right; apply WS; exact W|left; exact T]. }
  unfold emit_fields.
  pose proof (scope_exec name prefix u l' e buf d vs) as SE.
  rewrite (FM _ (vars prefix)) in SE. rewrite LV, LF in SE.
  destruct SE as (e1 & b1 & d1 & vs1 & E1 & S1 & L1 & W1 & F1 & Q1 & T1 & C1); try assumption.
  - intros Hn. rewrite Forall_forall. intros a Ia. destruct (f_disc (a_f a)) as [dd|] eqn:FD; [|reflexivity].
    pose proof (in_discs _ _ _ (IN a Ia) FD) as I. rewrite (SN Hn) in I. destruct I.
  - rewrite Forall_forall in *. intros a Ia. apply FO, IN, Ia.
  - rewrite Forall_forall in *. intros a Ia. apply OK, IN, Ia.
  - apply fop_filter. exact SP.
  - rewrite Forall_forall in *. intros a Ia p T R. exact (ST (a_f a) p (IN a Ia) T R).
  - rewrite Forall_forall in *. intros a Ia dd FD. apply SD. eapply in_discs; [apply IN; exact Ia|exact FD].
  - rewrite <- LF, map_map in Ev. rewrite <- LX in Ev. clear - Ev. induction l' as [|a l' IH]; [constructor|].
    cbn [map] in Ev. inversion Ev; subst. constructor; [assumption|]. apply IH. assumption.
  - intros a c Ia Ic. apply (Ec (a_f a) c); [|exact Ic]. rewrite <- LF. apply in_map. exact Ia.
  - rewrite <- LG. exact GL.
  - rewrite <- LG. intros NE. apply Et. intros U. apply NE. clear - SN U LG IN.
    assert (A : forall a, In a l' -> a_given a = []).
    { intros a Ia. apply a_given_none. left. unfold is_member. destruct (f_disc (a_f a)) as [dd|] eqn:FD; [|reflexivity].
      pose proof (in_discs _ _ _ (IN a Ia) FD) as I. rewrite (SN U) in I. destruct I. }
    rewrite LG. clear - A. induction l' as [|a l' IH]; [reflexivity|]. cbn [flat_map]. rewrite (A a) by (left; reflexivity).
    apply IH. intros b Ib. apply A. right. exact Ib.
  - intros i V W. apply Z0; [exact V|]. right. apply WS. exact W.
  - exists e1, b1, d1, vs1. split; [exact E1|]. split; [exact S1|]. split; [exact L1|].
    split; [intros w Nw; apply W1; split; [|intros _]; intros I; apply Nw; apply in_or_app; auto|]. split; [|split].
    + intros p V N. apply F1; [exact V|]. intros U. apply N, US, U.
    + intros o D VS G A. destruct (Q1 o D VS G) as (R1 & R2).
      { intros p V U. apply A; [exact V|]. apply US, U. }
      split.
      * rewrite <- LX. apply reads_of_items; [exact LF|exact R1].
      * intros NU. rewrite LG. destruct (flat_map a_given l') as [|dd r] eqn:GE.
        -- destruct u as [u'|]; [|congruence]. destruct (SU u' eq_refl) as [Hu1 Hu2].
           apply (tag_zero u' o D VS); try assumption. intros i Hi.
           assert (V : valid (LBit i)) by (unfold CtorSlots.valid; lia).
           assert (T : tag_region (Some u') (LBit i)) by (exists i; auto).
           rewrite <- (A (LBit i) V (or_introl T)).
           rewrite <- (F1 (LBit i) V); [apply Z0; [exact V|left; exact T]|].
           intros [(a & Ia & _ & Ra)|[X _]]; [|congruence]. exact (ST (a_f a) _ (IN a Ia) T Ra).
        -- apply R2. rewrite LG in GL. cbn [length] in GL. destruct r; [reflexivity|]. cbn [length] in GL. lia.
    + rewrite <- LX, <- LV, <- (ws_items_ok fuel ds ps fs l' LF FO LA). split; [exact T1|exact C1].
Qed.

Lemma good_group o D VS u f : good o D VS -> ensure_union o u f = Ok tt -> get_group o u f = Ok o.
Proof. intros (_ & _ & I) E. unfold get_group. rewrite E. cbn [bind]. exact I. Qed.

Lemma slot_default_arg t d off ex : slot_ok ds ps t off ex d -> scalar t -> slot_arg fuel t (slot_default t d) [].
Proof.
  intros (Ho & He & Hs) Sc. destruct t; try destruct Sc; cbn [slot_arg slot_default] in *; split; try reflexivity.
  - exists d. split; [left; reflexivity|apply Hs].
  - destruct Hs as [_ ->]. rewrite (He eq_refl). exists 0. split; [reflexivity|unfold in_fmt; cbn; lia].
  - destruct Hs as [_ ->]. rewrite (He eq_refl). exists 0. split; [reflexivity|unfold in_fmt; cbn; lia].
  - exists (negb (d =? 0)). left. reflexivity.
  - exists d. split; [left; reflexivity|apply Hs].
Qed.

Lemma varname_ne p n : p <> "" -> varname p n = p ++ "_" ++ n.
Proof. destruct p; [congruence|reflexivity]. Qed.

Lemma varname_nonempty p n : n <> "" -> varname p n <> "".
Proof. destruct p; cbn; [auto|]. intros _. discriminate. Qed.

Theorem ok_all f : ok_field f.
Proof.
  induction f as [n o dc t off ex dd|n o dc nl u fs IH] using field_ind';
    intros prefix e buf d vs x vals FO ND Eb Ep Ev Ec AO S Z0 Hl.
  - (* slot *)
    cbn [field_ok arg_ok f_name] in *. cbn [emit_body region].
    assert (N : varname prefix n <> "builder" /\ varname prefix n <> "pos").
    { cbn [vars f_name] in ND. inversion ND as [|? ? N1 N2]; subst. inversion N2 as [|? ? N3 N4]; subst. split; intros X.
      - apply N1. right. left. exact X.
      - apply N3. left. exact X. }
    destruct N as [N1 N2]. cbn [f_name].
    cbn [ptr_slots]. rewrite (proj1 (slot_len _ _ off _ _ AO)).
    eapply runs_weaken; [eapply (slot_exec ds ps Hds Hps fuel); eassumption| | |].
    + auto.
    + intros w Nw X. apply Nw. left. symmetry. exact X.
    + intros o' D VS G (g & R & SS) u E. cbn [field_reads]. exists g. split; [|exact SS].
      unfold get_slot. rewrite E. exact R.
  - cbn [field_ok] in FO. destruct FO as (SO & AF & NL). apply all_of_forall in AF.
    cbn [emit_body f_name] in *. set (v := varname prefix n) in *.
    rewrite vars_eq, rest_vars_group in ND. cbn [f_name] in ND. fold v in ND.
    assert (VARS : forall w, ~ In w (vars prefix (FGroup n o dc nl u fs)) -> w <> v /\
       ~ In w (match u with Some _ => [curtag v] | None => [] end ++ flat_map (vars v) (filter visible fs))%list).
    { intros w Nw. rewrite vars_eq, rest_vars_group in Nw. cbn [f_name] in Nw. fold v in Nw. split.
      - intros ->. apply Nw. left. reflexivity.
      - intros I. apply Nw. right. exact I. }
    set (inner := (match u with Some _ => [curtag v] | None => [] end ++ flat_map (vars v) (filter visible fs))%list) in *.
    assert (ND' : NoDup ("builder" :: "pos" :: inner)).
    { inversion ND as [|? ? N1 N2]; subst. inversion N2 as [|? ? N3 N4]; subst. inversion N4 as [|? ? N5 N6]; subst.
      constructor; [|constructor; [|exact N6]].
      - intros [X|X]; [discriminate X|]. apply N1. right. right. exact X.
      - intros X. apply N3. right. exact X. }
    assert (NDv : ~ In v inner).
    { inversion ND as [|? ? N1 N2]; subst. inversion N2 as [|? ? N3 N4]; subst. inversion N4 as [|? ? N5 N6]; subst. exact N5. }
    assert (NBP : v <> "builder" /\ v <> "pos").
    { inversion ND as [|? ? N1 N2]; subst. inversion N2 as [|? ? N3 N4]; subst. split; intros X.
      - apply N1. right. left. exact X.
      - apply N3. left. exact X. }
    set (heads := map (fun g => varname v (f_name g)) (filter visible fs)).
    assert (HF : flat_map (vars v) (filter visible fs) =
                 flat_map (fun g => varname v (f_name g) :: rest_vars v g) (filter visible fs)).
    { apply flat_map_ext. intros g. apply vars_eq. }
    assert (HI : forall w, In w heads -> In w (flat_map (vars v) (filter visible fs))).
    { intros w Hw. apply in_map_iff in Hw. destruct Hw as (g & <- & Hg). apply in_flat_map. exists g. split; [exact Hg|].
      rewrite vars_eq. left. reflexivity. }
    assert (NDF : NoDup (flat_map (vars v) (filter visible fs)) /\ (u <> None -> ~ In (curtag v) heads)).
    { inversion ND' as [|? ? N1 N2]; subst. inversion N2 as [|? ? N3 N4]; subst. unfold inner in N4.
      destruct (NoDup_app_inv _ _ N4) as (D1 & D2 & D3). split; [exact D2|]. intros NU I. destruct u; [|congruence].
      eapply D3; [left; reflexivity|]. apply HI. exact I. }
    destruct NDF as [NDF NCH].
    assert (NDH : NoDup heads).
    { clear - NDF HF. rewrite HF in NDF. unfold heads. revert NDF. generalize (filter visible fs). intros gs.
      induction gs as [|g gs IHg]; cbn [flat_map map]; intros N; [constructor|].
      inversion N as [|? ? N1 N2]; subst. destruct (NoDup_app_inv _ _ N2) as (D1 & D2 & D3). constructor; [|apply IHg; exact D2].
      intros I. apply N1, in_or_app. right. apply in_map_iff in I. destruct I as (h & E & Ih). apply in_flat_map.
      exists h. split; [exact Ih|]. left. exact E. }
    assert (HB : ~ In "builder" heads /\ ~ In "pos" heads).
    { inversion ND' as [|? ? N1 N2]; subst. inversion N2 as [|? ? N3 N4]; subst. split; intros I.
      - apply N1. right. unfold inner. apply in_or_app. right. apply HI. exact I.
      - apply N3. unfold inner. apply in_or_app. right. apply HI. exact I. }
    assert (HC : forall g c, In g (filter visible fs) -> In c (ctags v g) -> ~ In c heads).
    { intros g c Hg Hc I. rewrite HF in NDF. eapply (heads_tails _ _ _ c NDF I). apply in_flat_map. exists g. split; [exact Hg|].
      apply ctags_rest. exact Hc. }
    assert (ECG : forall g c, In g (filter visible fs) -> In c (ctags v g) -> e c = Some PNone).
    { intros g c Hg Hc. apply Ec. unfold ctags. rewrite unions_of_group, map_app, map_flat. fold v. apply in_or_app. right.
      apply in_flat_map. exists g. split; [exact Hg|exact Hc]. }
    assert (ECT : u <> None -> e (curtag v) = Some PNone).
    { intros NU. apply Ec. unfold ctags. rewrite unions_of_group, map_app. fold v. apply in_or_app. left.
      destruct u; [left; reflexivity|congruence]. }
    assert (IN1 : forall w, In w heads -> ~ In w (match u with Some _ => [curtag v] | None => [] end) -> In w inner).
    { intros w Hw _. unfold inner. apply in_or_app. right. apply HI. exact Hw. }
    (* once the variables of the children are set *)
    assert (GO : forall (e1 : env) xs, (forall w, ~ In w heads -> e1 w = e w) -> Forall2 (fun v x => e1 v = Some x) heads xs ->
              args_of (arg_ok fuel) fs xs vals -> (length (given fs xs) <= 1)%nat ->
              runs (region (FGroup n o dc nl u fs)) (fun w => ~ In w inner) (emit_fields ds (uctx v u) v fs) e1 buf d vs (out_size vals) (combine (slots_of ptr_slots fs xs) vals)
                (fun o => scope_reads o u fs xs)).
    { intros e1 xs F1 EV AO1 GL1. cbn [region]. apply scope_full; try assumption.
      - rewrite F1; [exact Eb|apply HB].
      - rewrite F1; [exact Ep|apply HB].
      - intros g c Hg Hc. rewrite F1; [eapply ECG; eassumption|]. eapply HC; eassumption.
      - intros NU. rewrite F1; [apply ECT; exact NU|]. apply NCH. exact NU. }
    destruct nl.
    + (* nullable *)
      destruct NL as [Nn (o1 & t1 & off1 & e1' & d1 & o2 & t2 & off2 & e2' & d2 & -> & Fl & Sc)].
      assert (V12 : filter visible [FSlot "is_null" o1 None t1 off1 e1' d1; FSlot "value" o2 None t2 off2 e2' d2] =
                    [FSlot "is_null" o1 None t1 off1 e1' d1; FSlot "value" o2 None t2 off2 e2' d2]).
      { destruct t1; try destruct Fl; destruct t2; try destruct Sc; reflexivity. }
            inversion AF as [|? ? AF1 AF2]; subst. inversion AF2 as [|? ? AF3 _]; subst. cbn [field_ok] in AF1, AF3.
      assert (Hv : v <> "") by (apply varname_nonempty; exact Nn).
      cbn [arg_ok value_type] in AO.
      set (fi := FSlot "is_null" o1 None t1 off1 e1' d1) in *. set (fv := FSlot "value" o2 None t2 off2 e2' d2) in *.
      assert (VI : visible fi = true /\ visible fv = true).
      { unfold fi, fv. split; [destruct t1; try destruct Fl; reflexivity|destruct t2; try destruct Sc; reflexivity]. }
      destruct VI as [VI1 VI2].
      rewrite V12.
      set (xi := match x with PNone => PInt 1 | _ => PInt 0 end).
      set (xv := match x with PNone => default None fv | _ => x end).
      assert (DF : default None fv = slot_default t2 d2) by reflexivity.
      assert (AV : slot_arg fuel t2 xv vals).
      { unfold xv. destruct AO as [[-> ->]|[Nx AO]].
        - rewrite DF. eapply slot_default_arg; eassumption.
        - destruct x; try exact AO. congruence. }
      assert (AI : slot_arg fuel t1 xi []).
      { unfold xi. assert (B : exists z, (match x with PNone => PInt 1 | _ => PInt 0 end) = PInt z /\ (z = 0 \/ z = 1)).
        { destruct x; eexists; (split; [reflexivity|]); auto. }
        destruct B as (z & -> & Hz). destruct t1; try destruct Fl; cbn [slot_arg]; split; try reflexivity.
        - exists z. split; [left; reflexivity|]. unfold in_fmt. destruct f; cbn; lia.
        - exists (z =? 1). right. f_equal. destruct Hz as [-> | ->]; reflexivity. }
      assert (ARGS : args_of (arg_ok fuel) [fi; fv] [xi; xv] vals).
      { cbn [args_of]. rewrite VI1, VI2. exists xi, [xv], [], vals. repeat split.
        - exists xv, [], vals, []. rewrite app_nil_r. repeat split. right. split; [discriminate|]. exact AV.
        - right. split; [discriminate|]. exact AI. }
      assert (GV : given [fi; fv] [xi; xv] = []).
      { cbn [given]. rewrite VI1, VI2. reflexivity. }
      set (e1 := setv (setv e (v ++ "_is_null") xi) (v ++ "_value") xv).
      assert (HEQ : heads = [v ++ "_is_null"; v ++ "_value"]).
      { unfold heads. rewrite V12. unfold fi, fv. cbn [map f_name]. rewrite !(varname_ne v) by exact Hv. reflexivity. }
      assert (NEQ : (v ++ "_is_null")%string <> (v ++ "_value")%string).
      { rewrite HEQ in NDH. inversion NDH as [|? ? N1 _]; subst. intros X. apply N1. left. symmetry. exact X. }
      assert (F1 : forall w, ~ In w heads -> e1 w = e w).
      { intros w Nw. rewrite HEQ in Nw. unfold e1. rewrite !setv_other; [reflexivity| |]; intros ->; apply Nw; cbn [In]; auto. }
      assert (E12 : Forall2 (fun v x => e1 v = Some x) heads [xi; xv]).
      { rewrite HEQ. unfold e1. constructor; [|constructor; [|constructor]].
        - rewrite setv_other by exact NEQ. apply setv_same.
        - apply setv_same. }
      destruct (GO e1 [xi; xv] F1 E12 ARGS) as (e2 & b2 & d2' & vs2 & E2 & S2 & L2 & W2 & F2 & Q2 & T2 & C2).
      { rewrite GV. cbn [length]. lia. }
      exists e2, b2, d2', vs2. split; [|split; [exact S2|split; [exact L2|split; [|split; [exact F2|split; [|split]]]]]].
      * cbn [exec exec_stmt]. unfold lookup. rewrite Ev. cbn [bind]. rewrite <- E2. unfold e1, xi, xv. destruct x; reflexivity.
      * intros w Nw. destruct (VARS w Nw) as [Nv Ni]. rewrite (W2 w Ni). apply F1.
        intros I. apply Ni. unfold inner. apply in_or_app. right. apply HI. exact I.
      * intros ob D VS G A u0 EN. destruct (Q2 ob D VS G A) as [RD _]. cbn [reads_of] in RD. rewrite VI1, VI2 in RD.
        destruct RD as ([[X _]|RI] & [[Y _]|RV] & _); [discriminate X|discriminate X|discriminate Y|].
        cbn [field_reads value_type] in RI, RV |- *. destruct RI as (gi & RI & SI). destruct RV as (gv & RV & SV).
        assert (TR : truthy gi = match x with PNone => true | _ => false end).
        { unfold xi in SI. destruct t1; try destruct Fl; cbn [slot_same] in SI.
          - destruct SI as (z & ([Z1|(b & Z1 & _)] & _) & ->); destruct x; first [discriminate Z1|injection Z1 as <-; reflexivity].
          - destruct SI as (b & [Z1|Z1] & ->); destruct x; first [discriminate Z1|injection Z1 as Z1; destruct b; first [reflexivity|discriminate Z1]]. }
        assert (NG : forall g, get_nullable ob u0 (FGroup n o dc true u [fi; fv]) = Ok g <->
                  (if truthy gi then Ok GNone else get_slot ob u fv) = Ok g).
        { intros g. unfold get_nullable. rewrite (good_group ob D VS u0 _ G EN). cbn [bind].
          unfold fi, fv. cbn [find f_name]. change (String.eqb "is_null" "is_null") with true.
          change (String.eqb "is_null" "value") with false. change (String.eqb "value" "value") with true. cbv iota.
          rewrite RI. cbn [bind]. reflexivity. }
        rewrite TR in NG.
        destruct AO as [[-> _]|[Nx _]].
        -- exists GNone. split; [apply NG; reflexivity|]. left. auto.
        -- exists gv. split.
           ++ apply NG. destruct x; first [exact RV|congruence].
           ++ right. split; [exact Nx|]. unfold xv in SV. destruct x; first [exact SV|congruence].
      * assert (VN : vals = []).
        { destruct AO as [[_ ->]|[_ AO]]; [reflexivity|]. eapply scalar_vals; eassumption. }
        rewrite VN in T2 |- *. cbn [ptr_slots combine].
        replace (combine (slots_of ptr_slots [fi; fv] [xi; xv]) (@nil value)) with (@nil (Z * value)) in T2
          by (destruct (slots_of ptr_slots [fi; fv] [xi; xv]); reflexivity). exact T2.
      * intros junk trunc st RC. destruct (C2 junk trunc st RC) as (st' & EC & RC'). exists st'. split; [|exact RC'].
        cbn [c_exec c_exec_stmt]. unfold lookup. rewrite Ev. cbn [bind]. rewrite <- EC. unfold e1, xi, xv. destruct x; reflexivity.
    + (* group *)
      cbn [arg_ok] in AO. destruct AO as (xs & PI & AO & GL).
      assert (LEN : length heads = length xs).
      { unfold heads. destruct (args_of_items _ _ _ _ AO) as (l' & LF & LX & _). rewrite map_length, <- LF, <- LX, !map_length. reflexivity. }
      destruct (set_all_ok heads e xs NDH LEN) as (e1 & SA & F1 & E12).
      destruct (GO e1 xs F1 E12 AO GL) as (e2 & b2 & d2 & vs2 & E2 & S2 & L2 & W2 & F2 & Q2 & T2 & C2).
      exists e2, b2, d2, vs2. split; [|split; [exact S2|split; [exact L2|split; [|split; [exact F2|split; [|split]]]]]].
      * cbn [exec exec_stmt]. unfold lookup. rewrite Ev. cbn [bind]. rewrite PI. cbn [bind]. fold heads. rewrite SA. exact E2.
      * intros w Nw. destruct (VARS w Nw) as [Nv Ni]. rewrite (W2 w Ni). apply F1.
        intros I. apply Ni. unfold inner. apply in_or_app. right. apply HI. exact I.
      * intros ob D VS G A u0 EN. destruct (Q2 ob D VS G A) as [RD UI]. cbn [field_reads].
        exists ob. split; [apply (good_group ob D VS); assumption|]. exists xs. auto.
      * cbn [ptr_slots]. rewrite PI. exact T2.
      * intros junk trunc st RC. destruct (C2 junk trunc st RC) as (st' & EC & RC'). exists st'. split; [|exact RC'].
        cbn [c_exec c_exec_stmt]. unfold lookup. rewrite Ev. cbn [bind]. rewrite PI. cbn [bind]. fold heads. rewrite SA. exact EC.
Qed.
End Exec.
