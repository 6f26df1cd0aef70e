(** Calling the constructors with keyword arguments *)
From Verif Require Import Base Spec BaseFacts Ptr PtrFacts Segment SegmentFacts Builder Copy Enc EncFacts
  EncDen CopyFacts Struct List Query StructFacts ObjFacts CopyList ArgSpec CopyListFacts Ctor CtorSpec CtorStore
  CRead BuilderC CCopyList CtorSlots CtorFacts CtorErr CtorFinal.
From Coq Require Import String ZifyBool ZifyNat.
From Coq Require Import Lists.List.
Local Notation length := Datatypes.length.
Open Scope string_scope.
Open Scope Z_scope.
Ltac Zify.zify_post_hook ::= Z.div_mod_to_equations.

(** ** Defaults *)

Definition null_default (fs : list field) (l : list pyval) : pyval :=
  match fs, l with
  | FSlot _ _ _ _ _ _ d :: _, _ :: v :: _ => if negb (d =? 0) then PNone else v
  | _, _ => POther
  end.

Lemma default_group force n o dc nl u fs :
  (is_member (FGroup n o dc nl u fs) && negb (match force with Some k => same_field (FGroup n o dc nl u fs) k | None => false end)) = false ->
  default force (FGroup n o dc nl u fs) =
  if nl then null_default fs (map (default force) (filter visible fs)) else PSeq (map (default force) (filter visible fs)).
Proof.
  intros H. cbn [default]. rewrite H.
  assert (G : forall l, (fix go (l : list field) : list pyval :=
      match l with [] => [] | g :: r => if visible g then default force g :: go r else go r end) l =
      map (default force) (filter visible l)).
  { induction l as [|g r IH]; [reflexivity|]. cbn [filter]. destruct (visible g); cbn [map]; rewrite IH; reflexivity. }
  destruct nl; [|rewrite G; reflexivity].
  unfold null_default. destruct fs as [|[|] l]; try reflexivity. rewrite <- G. reflexivity.
Qed.

Lemma default_member f : is_member f = true -> default None f = PUndef.
Proof. intros M. destruct f; cbn [default]; rewrite M; reflexivity. Qed.

(** Nothing but nulls *)
Definition nulls (vals : list value) : Prop := Forall (eq VNull) vals.
Lemma nulls_size vals : nulls vals -> out_size vals = 0.
Proof. induction 1 as [|v l <- H IH]; [reflexivity|]. cbn [out_size fold_right content]. exact IH. Qed.

Section Def.
Variables ds ps : Z.
Variable fuel : nat.
Hypothesis Hf : (2 <= fuel)%nat.

Definition default_fine (f : field) : Prop :=
  field_ok ds ps f -> has_default f -> f_disc f = None ->
  exists vals, arg_ok fuel f (default None f) vals /\ nulls vals.

Lemma has_default_group n o dc u fs g : has_default (FGroup n o dc false u fs) -> In g fs -> f_disc g = None -> has_default g.
Proof.
  cbn [has_default]. induction fs as [|h r IH]; intros H I D; [destruct I|]. destruct H as [H1 H2].
  destruct I as [<-|I]; [apply H1; exact D|]. apply IH; assumption.
Qed.

(** the arguments of a scope when all are left out *)
Lemma defaults_args fs : Forall default_fine fs -> Forall (field_ok ds ps) fs ->
  (forall g, In g fs -> f_disc g = None -> has_default g) ->
  exists vals, args_of (arg_ok fuel) fs (map (default None) (filter visible fs)) vals /\ nulls vals /\
    given fs (map (default None) (filter visible fs)) = [].
Proof.
  induction fs as [|f r IH]; intros DF FO HD.
  { exists []. repeat split. constructor. }
  inversion DF as [|? ? D1 D2]; subst. inversion FO as [|? ? F1 F2]; subst.
  destruct (IH D2 F2) as (vals & AO & OS & G); [intros g I; apply HD; right; exact I|].
  cbn [args_of given filter]. destruct (visible f) eqn:V; [|exists vals; auto]. cbn [map].
  destruct (f_disc f) as [dd|] eqn:FD.
  - assert (M : is_member f = true) by (unfold is_member; rewrite FD; reflexivity).
    rewrite (default_member f M). exists vals. split; [|split; [exact OS|exact G]].
    exists PUndef, (map (default None) (filter visible r)), [], vals. split; [reflexivity|]. split; [reflexivity|].
    split; [exact AO|]. left. auto.
  - destruct (D1 F1 (HD f (or_introl eq_refl) FD) FD) as (v1 & A1 & O1). exists (v1 ++ vals)%list.
    split; [|split; [apply Forall_app; split; assumption|exact G]].
    exists (default None f), (map (default None) (filter visible r)), v1, vals. split; [reflexivity|]. split; [reflexivity|].
    split; [exact AO|]. right. split; [|exact A1]. unfold is_member. rewrite FD. discriminate.
Qed.

Lemma default_ok f : default_fine f.
Proof.
  induction f as [n o dc t off ex d|n o dc nl u fs IH] using field_ind'; intros FO HD FD; cbn [f_disc] in FD; subst dc.
  - cbn [default is_member f_disc andb]. cbn [field_ok has_default arg_ok] in *.
    assert (PT : forall v, vdepth v = O -> limv v -> nulls [v] -> v = VNull -> True) by auto.
    destruct t; try (exists []; split; [eapply slot_default_arg; [exact FO|exact I]|constructor]).
    + exists []. split; [reflexivity|constructor].
    + exists [VNull]. split; [|repeat constructor]. exists VNull. repeat split.
    + exists [VNull]. split; [|repeat constructor]. exists VNull. repeat split.
    + exists [VNull]. split; [|repeat constructor]. exists VNull. repeat split; cbn [vdepth]; lia.
    + exists [VNull]. split; [|repeat constructor]. exists VNull. split; [reflexivity|]. split; [destruct t; left; auto|]. split; [repeat split|cbn [vdepth]; lia].
    + congruence.
  - rewrite default_group by reflexivity. cbn [field_ok] in FO. destruct FO as (SO & AF & NL). apply all_of_forall in AF.
    destruct nl.
    + destruct NL as [Nn (o1 & t1 & off1 & e1 & d1 & o2 & t2 & off2 & e2 & d2 & -> & Fl & Sc)].
      inversion AF as [|? ? AF1 AF2]; subst. inversion AF2 as [|? ? AF3 _]; subst. cbn [field_ok] in AF1, AF3.
      assert (V12 : filter visible [FSlot "is_null" o1 None t1 off1 e1 d1; FSlot "value" o2 None t2 off2 e2 d2] =
                    [FSlot "is_null" o1 None t1 off1 e1 d1; FSlot "value" o2 None t2 off2 e2 d2]).
      { destruct t1; try destruct Fl; destruct t2; try destruct Sc; reflexivity. }
      rewrite V12. unfold null_default. cbn [map]. exists []. split; [|constructor]. cbn [arg_ok value_type].
      destruct (negb (d1 =? 0)); [left; auto|]. right.
      cbn [default is_member f_disc andb]. split.
      * destruct t2; try destruct Sc; discriminate.
      * eapply slot_default_arg; eassumption.
    + destruct (defaults_args fs IH AF) as (vals & AO & OS & G).
      { intros g. apply (has_default_group _ _ _ _ _ _ HD). }
      exists vals. split; [|exact OS]. cbn [arg_ok]. exists (map (default None) (filter visible fs)).
      split; [reflexivity|]. split; [exact AO|]. rewrite G. cbn [length]. lia.
Qed.
End Def.

Lemma ok_valid fuel f : forall x v, arg_ok fuel f x v -> arg_valid fuel f x v.
Proof.
  induction f as [n o dc t off ex d|n o dc nl u fs IH] using field_ind'; intros x v H; [exact H|].
  destruct nl; [exact H|]. cbn [arg_ok arg_valid] in *. destruct H as (xs & PI & AO & _). exists xs. split; [exact PI|].
  clear PI. revert xs v AO. induction fs as [|g r IHr]; intros xs v AO; [exact AO|]. inversion IH as [|? ? I1 I2]; subst.
  cbn [args_of] in *. destruct (visible g); [|apply IHr; assumption].
  destruct AO as (y & ys & v1 & v2 & E1 & E2 & A2 & A1). exists y, ys, v1, v2. split; [exact E1|]. split; [exact E2|].
  split; [apply IHr; assumption|]. destruct A1 as [A1|[N A1]]; [left; exact A1|right; split; [exact N|apply I1; exact A1]].
Qed.

(** ** Reading one field *)
Lemma reads_of_map P (g : field -> pyval) fs : reads_of P fs (map g (filter visible fs)) ->
  forall f, In f fs -> visible f = true -> (is_member f = true /\ g f = PUndef) \/ P f (g f).
Proof.
  induction fs as [|h r IH]; intros H f I V; [destruct I|]. cbn [reads_of filter] in H.
  destruct (visible h) eqn:VH.
  - cbn [map] in H. destruct H as [H1 H2]. destruct I as [<-|I]; [exact H1|]. apply IH; assumption.
  - destruct I as [<-|I]; [congruence|]. apply IH; assumption.
Qed.

Lemma args_of_map P fs (g : field -> pyval) (vs : field -> list value) :
  (forall f, In f fs -> visible f = true ->
     (is_member f = true /\ g f = PUndef /\ vs f = []) \/ ((is_member f = true -> g f <> PUndef) /\ P f (g f) (vs f))) ->
  args_of P fs (map g (filter visible fs)) (flat_map vs (filter visible fs)).
Proof.
  induction fs as [|h r IH]; intros H; [split; reflexivity|]. cbn [args_of filter].
  assert (H' : args_of P r (map g (filter visible r)) (flat_map vs (filter visible r))).
  { apply IH. intros f I. apply H. right. exact I. }
  destruct (visible h) eqn:VH; [|exact H']. cbn [map flat_map].
  exists (g h), (map g (filter visible r)), (vs h), (flat_map vs (filter visible r)).
  split; [reflexivity|]. split; [reflexivity|]. split; [exact H'|]. apply H; [left; reflexivity|exact VH].
Qed.

Lemma given_map fs (g : field -> pyval) : given fs (map g (filter visible fs)) =
  flat_map (fun f => match f_disc f, g f with Some _, PUndef | None, _ => [] | Some d, _ => [d] end) (filter visible fs).
Proof.
  induction fs as [|h r IH]; [reflexivity|]. cbn [given filter]. destruct (visible h); [|exact IH].
  cbn [map flat_map]. rewrite IH. destruct (f_disc h); [|reflexivity]. destruct (g h); reflexivity.
Qed.

(** How the object of a call was made: the pointers that the arguments [xs]
    fill, with their values, none of which is other than given *)
Definition made (sn : struct_node) (kw : list (string * pyval)) (vals : string -> list value) (xs : list pyval)
  (o : obj) (d : bytes) (vs : list value) : Prop :=
  exists buf ws, o = root (sn_ds sn) (sn_ps sn) buf /\ store (sn_ds sn) (sn_ps sn) buf d vs /\
    shape (sn_ds sn) (sn_ps sn) buf (combine (slots_of ptr_slots (sn_fields sn) xs) ws) /\
    blen buf = call_size sn kw vals /\
    (forall v, In v ws -> v = VNull \/ exists f x, In f (filter visible (sn_fields sn)) /\ assoc kw (f_name f) = Some x /\ In v (vals (f_name f))).

Lemma made_vals (kw : list (string * pyval)) (vals : string -> list value) (vs : field -> list value) l (P : field -> Prop) :
  (forall f, In f l -> match assoc kw (f_name f) with Some _ => vs f = vals (f_name f) | None => nulls (vs f) end /\ P f) ->
  forall v, In v (flat_map vs l) -> v = VNull \/ exists f x, In f l /\ assoc kw (f_name f) = Some x /\ In v (vals (f_name f)).
Proof.
  intros H v I. apply in_flat_map in I. destruct I as (f & If & Iv). destruct (H f If) as [Hf _].
  destruct (assoc kw (f_name f)) as [x|] eqn:A.
  - right. exists f, x. rewrite Hf in Iv. auto.
  - left. unfold nulls in Hf. rewrite Forall_forall in Hf. symmetry. apply Hf. exact Iv.
Qed.

(** ** Cls( ** kw) *)
Lemma assoc_in kw n x : assoc kw n = Some x -> In (n, x) kw.
Proof.
  unfold assoc. destruct (find _ kw) as [[m y]|] eqn:E; [|discriminate]. intros H. injection H as <-.
  apply find_some in E. destruct E as [I E]. cbn [fst] in E. apply String.eqb_eq in E. subst m. exact I.
Qed.

Lemma bind_ok (fs : list field) dflt kw : (forall n x, In (n, x) kw -> exists f, In f fs /\ f_name f = n) ->
  bind_args (map f_name fs) (map dflt fs) kw = Ok (map (fun f => match assoc kw (f_name f) with Some x => x | None => dflt f end) fs).
Proof.
  intros H. unfold bind_args.
  assert (F : forallb (fun p => existsb (String.eqb (fst p)) (map f_name fs)) kw = true).
  { apply forallb_forall. intros [n x] I. apply existsb_exists. destruct (H n x I) as (f & If & <-).
    exists (f_name f). split; [apply in_map; exact If|apply String.eqb_refl]. }
  rewrite F. f_equal. clear. induction fs as [|f r IH]; [reflexivity|]. cbn [map combine]. rewrite IH. reflexivity.
Qed.

Lemma bind_unknown names dflts kw n x : In (n, x) kw -> ~ In n names -> bind_args names dflts kw = Err TypeError.
Proof.
  intros I N. unfold bind_args.
  assert (F : forallb (fun p => existsb (String.eqb (fst p)) names) kw = false).
  { apply not_true_is_false. intros F. rewrite forallb_forall in F. specialize (F _ I). apply existsb_exists in F.
    destruct F as (m & Im & E). cbn [fst] in E. apply String.eqb_eq in E. subst m. exact (N Im). }
  rewrite F. reflexivity.
Qed.

Section Call.
Variable fuel : nat.
Hypothesis Hf : (2 <= fuel)%nat.
Variable sn : struct_node.
Hypothesis L : layout_ok sn.
Notation fs := (sn_fields sn).
Notation top := (filter visible (sn_fields sn)).
Variable kw : list (string * pyval).
Variable vals : string -> list value.

Lemma top_ok f : In f top -> field_ok (sn_ds sn) (sn_ps sn) f.
Proof.
  intros I. apply filter_In in I. pose proof (lo_fields _ L) as AF. apply all_of_forall in AF. rewrite Forall_forall in AF. apply AF, I.
Qed.

Lemma call_args (P : field -> pyval -> list value -> Prop) : (forall f x v, arg_ok fuel f x v -> P f x v) -> call_of P top kw vals ->
  exists vs, args_of P fs (map (arg_for kw) top) vs /\
    length (given fs (map (arg_for kw) top)) = length (members_given top kw) /\
    8 * (sn_ds sn + sn_ps sn) + out_size vs = call_size sn kw vals /\
    (forall v, In v vs -> v = VNull \/ exists f x, In f top /\ assoc kw (f_name f) = Some x /\ In v (vals (f_name f))).
Proof.
  intros PW C.
  assert (VS : exists vs : field -> list value, forall f, In f top ->
     match assoc kw (f_name f) with Some _ => vs f = vals (f_name f) | None => nulls (vs f) end /\
     ((is_member f = true /\ arg_for kw f = PUndef /\ vs f = []) \/
      ((is_member f = true -> arg_for kw f <> PUndef) /\ P f (arg_for kw f) (vs f)))).
  { assert (ONE : forall f, In f top -> exists v, match assoc kw (f_name f) with Some _ => v = vals (f_name f) | None => nulls v end /\
      ((is_member f = true /\ arg_for kw f = PUndef /\ v = []) \/
      ((is_member f = true -> arg_for kw f <> PUndef) /\ P f (arg_for kw f) v))).
    { intros f If. unfold arg_for. destruct (assoc kw (f_name f)) as [x|] eqn:A.
      - exists (vals (f_name f)). split; [reflexivity|]. right. apply (call_given _ _ _ _ C f x If A).
      - destruct (f_disc f) as [dd|] eqn:FD.
        + exists []. split; [constructor|]. left. assert (MF : is_member f = true) by (unfold is_member; rewrite FD; reflexivity).
          split; [exact MF|]. split; [apply default_member; exact MF|reflexivity].
        + destruct (default_ok (sn_ds sn) (sn_ps sn) fuel Hf f (top_ok f If) (call_missing _ _ _ _ C f If A FD) FD) as (v & AO & OS).
          exists v. split; [exact OS|]. right. split; [unfold is_member; rewrite FD; discriminate|apply PW; exact AO]. }
    clear - Hf L ONE. pose proof (names_nodup sn L) as ND. revert ONE ND. generalize top. intros l. induction l as [|f l IH]; intros ONE ND.
    - exists (fun _ => []). intros f [].
    - inversion ND as [|? ? N1 N2]; subst. destruct IH as (vs & Hvs); [intros g Ig; apply ONE; right; exact Ig|exact N2|].
      destruct (ONE f (or_introl eq_refl)) as (v & Hv).
      exists (fun g => if String.string_dec (f_name g) (f_name f) then v else vs g).
      intros g [<-|Ig].
      + destruct (String.string_dec (f_name f) (f_name f)) as [_|X]; [exact Hv|congruence].
      + destruct (String.string_dec (f_name g) (f_name f)) as [X|_]; [|apply Hvs; exact Ig].
        exfalso. apply N1. rewrite <- X. apply in_map. exact Ig. }
  destruct VS as (vs & HV). exists (flat_map vs top). split; [|split; [|split; [|eapply made_vals; exact HV]]].
  - apply args_of_map. intros f If V. apply HV. apply filter_In. auto.
  - rewrite given_map. unfold members_given.
    assert (AS : forall f x, In f top -> assoc kw (f_name f) = Some x -> is_member f = true -> x <> PUndef).
    { intros f x If A. apply (call_given _ _ _ _ C f x If A). }
    clear - AS. revert AS. generalize top. intros l. induction l as [|f l IH]; intros AS; [reflexivity|].
    cbn [flat_map filter]. rewrite app_length. assert (IH' := IH (fun g x Ig => AS g x (or_intror Ig))). clear IH.
    pose proof (AS f) as ASf. unfold is_member in ASf. unfold is_member at 1.
    destruct (f_disc f) as [dd|] eqn:FD; [|cbn [andb length]; lia]. cbn [andb].
    unfold arg_for in IH' |- *. destruct (assoc kw (f_name f)) as [x|] eqn:A.
    + specialize (ASf x (or_introl eq_refl) eq_refl eq_refl). destruct x; try congruence; cbn [length]; lia.
    + rewrite default_member by (unfold is_member; rewrite FD; reflexivity). cbn [length]. lia.
  - unfold call_size. f_equal. clear - HV. revert HV. generalize top. intros l. induction l as [|f l IH]; intros HV; [reflexivity|].
    cbn [flat_map]. rewrite !out_size_app, IH by (intros g Ig; apply HV; right; exact Ig).
    destruct (HV f (or_introl eq_refl)) as [H _]. destruct (assoc kw (f_name f)); [rewrite H; reflexivity|]. rewrite (nulls_size _ H). reflexivity.
Qed.

Theorem ctor_made : call_ok fuel top kw vals -> (length (members_given top kw) <= 1)%nat -> call_size sn kw vals <= 2 ^ 32 ->
  exists o d vs, ctor fuel sn kw = Ok o /\ obj_den o d vs /\ blen d = 8 * sn_ds sn /\ blen vs = sn_ps sn /\
    scope_reads o (sn_utag sn) fs (map (arg_for kw) top) /\
    made sn kw vals (map (arg_for kw) top) o d vs /\
    (forall junk trunc, c_ctor junk trunc fuel sn kw = Ok o).
Proof.
  intros C M HS. destruct (call_args _ (fun f x v H => H) C) as (vs & AO & GL & SZ & MV). rewrite <- GL in M.
  destruct (run_new_ok fuel sn L _ _ (conj AO M)) as (buf & d & vs' & R & I & D & L1 & L2 & SR & ST & TR & BL & CR & CI); [lia|].
  exists (root (sn_ds sn) (sn_ps sn) buf), d, vs'.
  split; [|do 4 (split; [assumption|]); split; [exists buf, vs; repeat (split; [first [reflexivity|assumption|lia]|]); exact MV|]].
  - unfold ctor. rewrite bind_ok by apply (call_names _ _ _ _ C). cbn [bind].
    change (map (fun f : field => match assoc kw (f_name f) with Some x => x | None => default None f end) top) with (map (arg_for kw) top).
    rewrite R. cbn [bind]. exact I.
  - intros junk trunc. unfold c_ctor. rewrite bind_ok by apply (call_names _ _ _ _ C). cbn [bind].
    change (map (fun f : field => match assoc kw (f_name f) with Some x => x | None => default None f end) top) with (map (arg_for kw) top).
    rewrite CR. cbn [bind]. exact CI.
Qed.

Theorem ctor_ok : call_ok fuel top kw vals -> (length (members_given top kw) <= 1)%nat -> call_size sn kw vals <= 2 ^ 32 ->
  exists o d vs, ctor fuel sn kw = Ok o /\ obj_den o d vs /\ blen d = 8 * sn_ds sn /\ blen vs = sn_ps sn /\
    scope_reads o (sn_utag sn) fs (map (arg_for kw) top).
Proof.
  intros C M HS. destruct (ctor_made C M HS) as (o & d & vs & A1 & A2 & A3 & A4 & A5 & _). exists o, d, vs. auto.
Qed.

Theorem ctor_two : call_valid fuel top kw vals -> call_size sn kw vals <= 2 ^ 32 ->
  (2 <= length (members_given top kw))%nat \/
    (exists f x, In f top /\ assoc kw (f_name f) = Some x /\ two_members f x) ->
  ctor fuel sn kw = Err TypeError /\ forall junk trunc, c_ctor junk trunc fuel sn kw = Err TypeError.
Proof.
  intros C HS T. destruct (call_args _ (ok_valid fuel) C) as (vs & AO & GL & SZ & _).
  unfold ctor, c_ctor. rewrite bind_ok by apply (call_names _ _ _ _ C). cbn [bind].
  change (map (fun f : field => match assoc kw (f_name f) with Some x => x | None => default None f end) top) with (map (arg_for kw) top).
  assert (H : forall tg : two_given (sn_fields sn) (map (arg_for kw) top), run_new fuel sn (map (arg_for kw) top) = Err TypeError /\
            forall junk trunc, c_run_new junk trunc fuel sn (map (arg_for kw) top) = Err TypeError).
  { intros tg. apply (run_new_two fuel sn L _ _ AO); [exact tg|lia]. }
  destruct H as [H1 H2]; [|rewrite H1; split; [reflexivity|]; intros junk trunc; rewrite H2; reflexivity].
  destruct T as [T|(f & x & If & A & T)]; [left; lia|]. right.
  assert (G : forall l, In f (filter visible l) -> some_arg two_members l (map (arg_for kw) (filter visible l))).
  { induction l as [|g r IH]; intros I; [destruct I|]. cbn [some_arg filter] in *. destruct (visible g); [|apply IH; exact I].
    cbn [map]. destruct I as [<-|I]; [|right; apply IH; exact I]. left. unfold arg_for. rewrite A. exact T. }
  apply G. exact If.
Qed.

Theorem ctor_unknown n x : In (n, x) kw -> ~ (exists f, In f top /\ f_name f = n) -> ctor fuel sn kw = Err TypeError.
Proof.
  intros I N. unfold ctor. rewrite (bind_unknown _ _ _ n x I); [reflexivity|]. intros J. apply N.
  apply in_map_iff in J. destruct J as (f & E & If). eauto.
Qed.
End Call.

(** ** Cls.new_foo( ** kw) *)
Lemma filter_nil {A} (p : A -> bool) l : (forall x, In x l -> p x = false) -> filter p l = [].
Proof.
  induction l as [|a l IH]; intros H; [reflexivity|]. cbn [filter]. rewrite (H a) by (left; reflexivity).
  apply IH. intros x I. apply H. right. exact I.
Qed.

Lemma no_key_group k n o dc nl u fs : no_key k (FGroup n o dc nl u fs) -> Forall (fun g => same_field g k = false /\ no_key k g) fs.
Proof.
  cbn [no_key]. induction fs as [|g r IH]; intros H; [constructor|]. destruct H as (H1 & H2 & H3). constructor; [auto|]. apply IH. exact H3.
Qed.

Lemma map_filter_ext {A B} (g h : A -> B) p l : (forall x, In x l -> g x = h x) -> map g (filter p l) = map h (filter p l).
Proof. intros H. apply map_ext_in. intros x I. apply H. apply filter_In in I. apply I. Qed.

Lemma default_other k f : no_key k f -> same_field f k = false -> default (Some k) f = default None f.
Proof.
  induction f as [n o dc t off ex d|n o dc nl u fs IH] using field_ind'; intros NK SF.
  - cbn [default]. rewrite SF. reflexivity.
  - apply no_key_group in NK. destruct (is_member (FGroup n o dc nl u fs)) eqn:M.
    + rewrite default_member by exact M. cbn [default]. rewrite SF, M. reflexivity.
    + rewrite !default_group by (rewrite M; reflexivity).
      rewrite (map_filter_ext (default (Some k)) (default None)); [reflexivity|].
      intros g Ig. rewrite Forall_forall in *. destruct (NK g Ig). apply IH; assumption.
Qed.

Lemma default_tag k f : no_key k f -> same_field f k = true -> default (Some k) f = default None (alone f).
Proof.
  destruct f as [n o dc t off ex d|n o dc nl u fs]; intros NK SF.
  - cbn [default alone]. rewrite SF, andb_false_r. reflexivity.
  - apply no_key_group in NK. cbn [alone]. rewrite !default_group; [|reflexivity|rewrite SF, andb_false_r; reflexivity].
    rewrite (map_filter_ext (default (Some k)) (default None)); [reflexivity|].
    intros g Ig. rewrite Forall_forall in NK. destruct (NK g Ig). apply default_other; assumption.
Qed.

Lemma default_defined ds ps f : field_ok ds ps f -> f_disc f = None -> default None f <> PUndef.
Proof.
  intros FO FD. destruct f as [n o dc t off ex d|n o dc nl u fs]; cbn [f_disc] in FD; subst dc.
  - cbn [default is_member f_disc andb]. destruct t; discriminate.
  - rewrite default_group by reflexivity. destruct nl; [|discriminate].
    cbn [field_ok] in FO. destruct FO as (_ & _ & _ & (o1 & t1 & off1 & e1 & d1 & o2 & t2 & off2 & e2 & d2 & -> & Fl & Sc)).
    destruct t1; try destruct Fl; destruct t2; try destruct Sc; cbn; destruct (negb (d1 =? 0)); discriminate.
Qed.

Lemma assoc_map (g : field -> pyval) l f : NoDup (map f_name l) -> In f l ->
  assoc (combine (map f_name l) (map g l)) (f_name f) = Some (g f).
Proof.
  unfold assoc. induction l as [|h r IH]; intros N I; [destruct I|]. inversion N as [|? ? N1 N2]; subst.
  cbn [map combine find fst]. destruct I as [<-|I].
  - rewrite String.eqb_refl. reflexivity.
  - destruct (String.eqb (f_name h) (f_name f)) eqn:E; [|apply IH; assumption].
    apply String.eqb_eq in E. exfalso. apply N1. rewrite E. apply in_map. exact I.
Qed.

Lemma assoc_none (g : field -> pyval) l n : ~ In n (map f_name l) -> assoc (combine (map f_name l) (map g l)) n = None.
Proof.
  unfold assoc. induction l as [|h r IH]; intros N; [reflexivity|]. cbn [map combine find fst].
  destruct (String.eqb (f_name h) n) eqn:E; [apply String.eqb_eq in E; exfalso; apply N; left; exact E|].
  apply IH. intros I. apply N. right. exact I.
Qed.

Lemma name_inj l (f g : field) : NoDup (map f_name l) -> In f l -> In g l -> f_name f = f_name g -> f = g.
Proof.
  induction l as [|h r IH]; intros N I J E; [destruct I|]. inversion N as [|? ? N1 N2]; subst.
  destruct I as [<-|I], J as [<-|J]; [reflexivity| | |apply IH; assumption].
  - exfalso. apply N1. rewrite E. apply in_map. exact J.
  - exfalso. apply N1. rewrite <- E. apply in_map. exact I.
Qed.

Lemma NoDup_filter_map (p : field -> bool) l : NoDup (map f_name l) -> NoDup (map f_name (filter p l)).
Proof.
  induction l as [|h r IH]; intros N; [exact N|]. inversion N as [|? ? N1 N2]; subst. cbn [filter]. destruct (p h); [|apply IH; exact N2].
  cbn [map]. constructor; [|apply IH; exact N2]. intros I. apply N1. apply in_map_iff in I. destruct I as (g & E & Ig).
  apply filter_In in Ig. apply in_map_iff. exists g. tauto.
Qed.

Lemma arg_ok_alone fuel f x v : arg_ok fuel (alone f) x v <-> arg_ok fuel f x v.
Proof. destruct f; reflexivity. Qed.
Lemma field_ok_alone ds ps f : field_ok ds ps (alone f) <-> field_ok ds ps f.
Proof. destruct f; reflexivity. Qed.
Lemma has_default_alone f : has_default (alone f) <-> has_default f.
Proof. destruct f as [|? ? ? [] ? ?]; reflexivity. Qed.

Section New.
Variable fuel : nat.
Hypothesis Hf : (2 <= fuel)%nat.
Variable sn : struct_node.
Hypothesis L : layout_ok sn.
Notation fs := (sn_fields sn).
Notation top := (filter visible (sn_fields sn)).
Variable kw : list (string * pyval).
Variable vals : string -> list value.
Variable tag : field.
Variable dd : Z.
Hypothesis HT : In tag top.
Hypothesis HD : f_disc tag = Some dd.
Hypothesis NK : forall f, In f top -> no_key (f_name tag, f_order tag) f.
Notation mine := (fun f : field => negb (is_member f) || String.eqb (f_name f) (f_name tag)).

Lemma tag_member : is_member tag = true.
Proof. unfold is_member. rewrite HD. reflexivity. Qed.

Lemma same_tag f : In f top -> same_field f (f_name tag, f_order tag) = String.eqb (f_name f) (f_name tag).
Proof.
  intros I. unfold same_field. cbn [fst snd]. destruct (String.eqb (f_name f) (f_name tag)) eqn:E; [|reflexivity].
  apply String.eqb_eq in E. rewrite (name_inj _ _ _ (names_nodup sn L) I HT E). cbn [andb]. apply Z.eqb_refl.
Qed.

Theorem new_made : call_ok fuel (filter mine top) kw vals ->
  (assoc kw (f_name tag) = None -> has_default tag) -> call_size sn kw vals <= 2 ^ 32 ->
  exists o d vs, ctor_union fuel sn tag kw = Ok o /\ obj_den o d vs /\ blen d = 8 * sn_ds sn /\ blen vs = sn_ps sn /\
    which o (sn_utag sn) = Ok dd /\
    scope_reads o (sn_utag sn) fs (map (new_arg kw tag) top) /\
    made sn kw vals (map (new_arg kw tag) top) o d vs /\
    (forall junk trunc, c_ctor_union junk trunc fuel sn tag kw = Ok o).
Proof.
  intros C HDT HS. pose proof (names_nodup sn L) as NN.
  assert (MINE : forall f, In f top -> negb (is_member f) || same_field f (f_name tag, f_order tag) = mine f).
  { intros f If. rewrite same_tag by exact If. reflexivity. }
  assert (FM : filter (fun f => negb (is_member f) || same_field f (f_name tag, f_order tag)) top = filter mine top).
  { apply filter_ext_in. exact MINE. }
  assert (EQ : ctor_union fuel sn tag kw = (do buf <- run_new fuel sn (map (new_arg kw tag) top);
                 init_from_buffer {| sbuf := buf; soffs := None |} 0 (sn_ds sn) (sn_ps sn)) /\
               forall junk trunc, c_ctor_union junk trunc fuel sn tag kw = (do buf <- c_run_new junk trunc fuel sn (map (new_arg kw tag) top);
                 c_init_from_buffer {| sbuf := buf; soffs := None |} 0 (sn_ds sn) (sn_ps sn))).
  { unfold ctor_union, c_ctor_union. rewrite FM. rewrite bind_ok by apply (call_names _ _ _ _ C). cbn [bind].
    assert (MA : forall f, In f top ->
      match assoc (combine (map f_name (filter mine top))
         (map (fun f => match assoc kw (f_name f) with Some x => x | None => default (Some (f_name tag, f_order tag)) f end) (filter mine top)))
         (f_name f) with Some x => x | None => PUndef end = new_arg kw tag f).
    { intros f If. unfold new_arg. destruct (is_member f) eqn:M.
      - destruct (String.eqb (f_name f) (f_name tag)) eqn:E.
        + rewrite assoc_map; [|apply NoDup_filter_map; exact NN|apply filter_In; rewrite M, E; auto].
          destruct (assoc kw (f_name f)); [reflexivity|]. apply default_tag; [apply NK; exact If|]. rewrite same_tag by exact If. exact E.
        + rewrite assoc_none; [reflexivity|]. intros I. apply in_map_iff in I. destruct I as (g & EN & Ig). apply filter_In in Ig.
          destruct Ig as [Ig MG]. rewrite (name_inj _ _ _ NN Ig If EN), M, E in MG. discriminate MG.
      - rewrite assoc_map; [|apply NoDup_filter_map; exact NN|apply filter_In; rewrite M; auto].
        unfold arg_for. destruct (assoc kw (f_name f)); [reflexivity|].
        destruct (same_field f (f_name tag, f_order tag)) eqn:SF; [|apply default_other; [apply NK; exact If|exact SF]].
        rewrite same_tag in SF by exact If. apply String.eqb_eq in SF. rewrite (name_inj _ _ _ NN If HT SF), tag_member in M. discriminate M. }
    rewrite (map_ext_in _ (new_arg kw tag) top MA). split; [reflexivity|]. intros junk trunc. reflexivity. }
  (* the arguments *)
  assert (KN : forall f x, In f top -> assoc kw (f_name f) = Some x -> mine f = true).
  { intros f x If A. apply assoc_in in A. destruct (call_names _ _ _ _ C _ _ A) as (g & Ig & E). apply filter_In in Ig.
    destruct Ig as [Ig MG]. rewrite <- (name_inj _ _ _ NN Ig If E). exact MG. }
  assert (ONE : forall f, In f top -> exists v, match assoc kw (f_name f) with Some _ => v = vals (f_name f) | None => nulls v end /\
      ((is_member f = true /\ new_arg kw tag f = PUndef /\ v = []) \/
      ((is_member f = true -> new_arg kw tag f <> PUndef) /\ arg_ok fuel f (new_arg kw tag f) v))).
  { intros f If. assert (MF : mine f = true -> In f (filter mine top)) by (intros X; apply filter_In; auto).
    unfold new_arg, arg_for. destruct (assoc kw (f_name f)) as [x|] eqn:A.
    - pose proof (KN f x If A) as KM. exists (vals (f_name f)). split; [reflexivity|]. right.
      replace (if is_member f then if (f_name f =? f_name tag)%string then x else PUndef else x) with x.
      2:{ clear - KM. cbv beta in KM. destruct (is_member f); [|reflexivity]. cbn [negb orb] in KM. rewrite KM. reflexivity. }
      apply (call_given _ _ _ _ C f x (MF KM) A).
    - destruct (is_member f) eqn:M.
      + destruct (String.eqb (f_name f) (f_name tag)) eqn:E.
        * apply String.eqb_eq in E. rewrite (name_inj _ _ _ NN If HT E) in *.
          pose proof (top_ok sn L tag HT) as FO. apply field_ok_alone in FO.
          destruct (default_ok (sn_ds sn) (sn_ps sn) fuel Hf (alone tag) FO) as (v & AO & OS).
          { apply has_default_alone. apply HDT. exact A. } { destruct tag; reflexivity. }
          exists v. split; [exact OS|]. right. split; [intros _; eapply default_defined; [exact FO|destruct tag; reflexivity]|].
          apply arg_ok_alone. exact AO.
        * exists []. split; [constructor|]. left. auto.
      + assert (FD : f_disc f = None) by (unfold is_member in M; destruct (f_disc f); [discriminate M|reflexivity]).
        destruct (default_ok (sn_ds sn) (sn_ps sn) fuel Hf f (top_ok sn L f If)) as (v & AO & OS); [|exact FD|].
        { apply (call_missing _ _ _ _ C f); [apply MF; cbv beta; rewrite M; reflexivity|exact A|exact FD]. }
        exists v. split; [exact OS|]. right. split; [discriminate|exact AO]. }
  assert (VS : exists vs : field -> list value, forall f, In f top ->
     match assoc kw (f_name f) with Some _ => vs f = vals (f_name f) | None => nulls (vs f) end /\
     ((is_member f = true /\ new_arg kw tag f = PUndef /\ vs f = []) \/
      ((is_member f = true -> new_arg kw tag f <> PUndef) /\ arg_ok fuel f (new_arg kw tag f) (vs f)))).
  { clear - ONE NN. revert ONE NN. generalize top. intros l. induction l as [|f l IH]; intros ONE ND.
    - exists (fun _ => []). intros f [].
    - inversion ND as [|? ? N1 N2]; subst. destruct IH as (vs & Hvs); [intros g Ig; apply ONE; right; exact Ig|exact N2|].
      destruct (ONE f (or_introl eq_refl)) as (v & Hv).
      exists (fun g => if String.string_dec (f_name g) (f_name f) then v else vs g).
      intros g [<-|Ig].
      + destruct (String.string_dec (f_name f) (f_name f)) as [_|X]; [exact Hv|congruence].
      + destruct (String.string_dec (f_name g) (f_name f)) as [X|_]; [|apply Hvs; exact Ig].
        exfalso. apply N1. rewrite <- X. apply in_map. exact Ig. }
  destruct VS as (vs & HV).
  assert (AO : args_of (arg_ok fuel) fs (map (new_arg kw tag) top) (flat_map vs top)).
  { apply args_of_map. intros f If V. apply HV. apply filter_In. auto. }
  assert (SZ : 8 * (sn_ds sn + sn_ps sn) + out_size (flat_map vs top) = call_size sn kw vals).
  { unfold call_size. f_equal. clear - HV. revert HV. generalize top. intros l. induction l as [|f l IH]; intros HV; [reflexivity|].
    cbn [flat_map]. rewrite !out_size_app, IH by (intros g Ig; apply HV; right; exact Ig).
    destruct (HV f (or_introl eq_refl)) as [H _]. destruct (assoc kw (f_name f)); [rewrite H; reflexivity|]. rewrite (nulls_size _ H). reflexivity. }
  assert (GV : given fs (map (new_arg kw tag) top) = [dd]).
  { rewrite given_map.
    assert (TU : new_arg kw tag tag <> PUndef).
    { destruct (HV tag HT) as [_ [(_ & U & V)|[N _]]]; [|apply N, tag_member].
      unfold new_arg in U. rewrite tag_member, String.eqb_refl in U. destruct (assoc kw (f_name tag)) as [x|] eqn:A.
      - subst x. destruct (call_given _ _ _ _ C tag PUndef) as [X _]; [apply filter_In; rewrite tag_member, String.eqb_refl; auto|exact A|].
        exfalso. apply (X tag_member). reflexivity.
      - exfalso. revert U. eapply default_defined; [apply field_ok_alone; exact (top_ok sn L tag HT)|destruct tag; reflexivity]. }
    assert (HT2 := HT). clear - NN HT2 HD TU. revert NN HT2. generalize top. intros l. induction l as [|f l IH]; intros NN HT2; [destruct HT2|].
    inversion NN as [|? ? N1 N2]; subst. cbn [flat_map].
    assert (OTH : forall l', ~ In (f_name tag) (map f_name l') ->
      flat_map (fun f => match f_disc f, new_arg kw tag f with Some _, PUndef | None, _ => [] | Some d, _ => [d] end) l' = []).
    { clear. induction l' as [|g r IHr]; intros N; [reflexivity|]. cbn [flat_map]. rewrite IHr by (intros I; apply N; right; exact I).
      destruct (f_disc g) as [d'|] eqn:FD; [|reflexivity]. unfold new_arg, is_member. rewrite FD.
      destruct (String.eqb (f_name g) (f_name tag)) eqn:E; [|reflexivity]. apply String.eqb_eq in E. exfalso. apply N. left. exact E. }
    destruct HT2 as [->|HT2].
    - rewrite OTH by exact N1. rewrite HD. destruct (new_arg kw tag tag); try reflexivity. congruence.
    - rewrite IH by assumption. destruct (f_disc f) as [d'|] eqn:FD; [|reflexivity].
      unfold new_arg, is_member. rewrite FD. destruct (String.eqb (f_name f) (f_name tag)) eqn:E; [|reflexivity].
      apply String.eqb_eq in E. exfalso. apply N1. rewrite E. apply in_map. exact HT2. }
  destruct (run_new_ok fuel sn L (map (new_arg kw tag) top) (flat_map vs top)) as (buf & d & vs' & R & I & D & L1 & L2 & SR & ST & TR & BL & CR & CI).
  { split; [exact AO|]. rewrite GV. cbn [length]. lia. } { lia. }
  exists (root (sn_ds sn) (sn_ps sn) buf), d, vs'. destruct EQ as [EQ CEQ]. rewrite EQ, R. cbn [bind].
  split; [exact I|]. split; [exact D|]. split; [exact L1|]. split; [exact L2|].
  split; [|split; [exact SR|split; [exists buf, (flat_map vs top); repeat (split; [first [reflexivity|assumption|lia]|]); eapply made_vals; exact HV|intros junk trunc; rewrite CEQ, CR; exact CI]]].
  destruct SR as [_ U]. unfold union_is in U. rewrite GV in U. apply U.
  intros N. destruct (lo_scope _ L) as (_ & _ & SN & _). specialize (SN N). pose proof HT as IT. apply filter_In in IT. destruct IT as [IT _].
  pose proof (in_discs _ _ _ IT HD) as J. rewrite SN in J. destruct J.
Qed.

Theorem new_ok : call_ok fuel (filter mine top) kw vals ->
  (assoc kw (f_name tag) = None -> has_default tag) -> call_size sn kw vals <= 2 ^ 32 ->
  exists o d vs, ctor_union fuel sn tag kw = Ok o /\ obj_den o d vs /\ blen d = 8 * sn_ds sn /\ blen vs = sn_ps sn /\
    which o (sn_utag sn) = Ok dd /\
    scope_reads o (sn_utag sn) fs (map (new_arg kw tag) top).
Proof.
  intros C HDT HS. destruct (new_made C HDT HS) as (o & d & vs & A1 & A2 & A3 & A4 & A5 & A6 & _). exists o, d, vs. auto 10.
Qed.
End New.
