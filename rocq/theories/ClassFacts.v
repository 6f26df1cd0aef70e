(** The body read from the text of a whole class *)
From Coq Require Import Strings.String.
From Verif Require FloatBits Names CtorSpec ArgSpec.
From Verif Require Import Base BaseFacts Spec Ptr Segment Builder Copy Struct List CopyList Case CaseFacts Loader Repr PyExpr
  Ctor PySyntax PySyntaxFacts PyPrint PyRun GenRun GenText ClassText TextSpec ClassSpec GenTextFacts GenTextRun GenNew GenNew2 GenNew3 GenNew4 GenNew5 GenGet GenGet2 Properties_Text Properties_TextNew.
From Coq Require Import Lists.List Permutation.
Local Notation length := Datatypes.length.
Local Open Scope string_scope.
Local Open Scope list_scope.
Local Open Scope Z_scope.

(** ** Definitions in a body *)
Lemma defs_app a b : defs (a ++ b) = defs a ++ defs b. Proof. apply flat_map_app. Qed.
Lemma in_defs l d n ps b : In (qDef d n ps b) l -> In n (defs l).
Proof. intros I. apply in_flat_map. exists (qDef d n ps b). split; [exact I|now left]. Qed.
Lemma last_def_cons q l n : last_def (q :: l) n =
  match last_def l n with
  | Some x => Some x
  | None => match q with qDef d f ps b => if str_eqb f n then Some (d, ps, b) else None | _ => None end
  end.
Proof.
  unfold last_def. cbn [fold_left].
  assert (G : forall l a, fold_left (fun a q => match q with qDef d f ps b => if str_eqb f n then Some (d, ps, b) else a | _ => a end) l a =
    match fold_left (fun a q => match q with qDef d f ps b => if str_eqb f n then Some (d, ps, b) else a | _ => a end) l None with Some x => Some x | None => a end).
  { clear. induction l as [|q l IH]; intros a; [reflexivity|]. cbn [fold_left]. rewrite IH, (IH (match q with qDef _ _ _ _ => _ | _ => None end)).
    destruct (fold_left _ l None); [reflexivity|]. destruct q; try reflexivity. destruct (str_eqb _ _); reflexivity. }
  apply G.
Qed.
Lemma last_def_app a b n : last_def (a ++ b) n = match last_def b n with Some x => Some x | None => last_def a n end.
Proof.
  induction a as [|q a IH]; cbn [app]; [destruct (last_def b n); reflexivity|]. rewrite last_def_cons, IH, (last_def_cons q a). destruct (last_def b n); reflexivity.
Qed.
Lemma last_def_none l n : ~ In n (defs l) -> last_def l n = None.
Proof.
  induction l as [|q l IH]; intros N; [reflexivity|]. rewrite last_def_cons, IH.
  - destruct q; try reflexivity. destruct (str_eqb _ n) eqn:E; [|reflexivity]. apply str_eqb_spec in E. subst. exfalso. apply N. now left.
  - intros I. apply N. change (q :: l) with ([q] ++ l). rewrite defs_app. apply in_or_app. now right.
Qed.
Lemma last_def_in l d n ps b : NoDup (defs l) -> In (qDef d n ps b) l -> last_def l n = Some (d, ps, b).
Proof.
  induction l as [|q l IH]; intros N I; [destruct I|]. rewrite last_def_cons.
  destruct I as [->|I].
  - change (NoDup (n :: defs l)) in N. rewrite (last_def_none l n) by (inversion N; assumption). rewrite str_eqb_refl. reflexivity.
  - assert (N' : NoDup (defs l)) by (destruct q; cbn [defs flat_map app] in N; try exact N; inversion N; assumption).
    rewrite (IH N' I). reflexivity.
Qed.

(** ** Texts in sequence *)
(** a text, and the names of the functions in it *)
Definition is_def (q : pstmt) : bool := match q with qDef _ _ _ _ => true | _ => false end.
Definition part (k : nat) (p : list str * list str) : Prop := exists l, block k (fst p) l /\ defs l = snd p /\ forallb is_def l = true.
Lemma parts_block k ps : Forall (part k) ps -> exists l, block k (flat_map fst ps) l /\ defs l = flat_map snd ps /\ forallb is_def l = true /\
  forall p, In p ps -> exists l', block k (fst p) l' /\ incl l' l.
Proof.
  induction ps as [|p ps IH]; intros F.
  - exists []. split; [apply blk_nil|]. split; [reflexivity|]. split; [reflexivity|]. intros p [].
  - inversion F as [|? ? (l1 & B1 & D1 & O1) F']; subst. destruct (IH F') as (l2 & B2 & D2 & O2 & S).
    exists (l1 ++ l2). split; [apply blk_app; assumption|]. split; [rewrite defs_app, D1, D2; reflexivity|]. split; [now rewrite forallb_app, O1, O2|].
    intros q [<-|I]; [exists l1; split; [exact B1|apply incl_appl, incl_refl]|]. destruct (S q I) as (l' & B & J). exists l'. split; [exact B|apply incl_appr, J].
Qed.

(** ** The members of the union *)
Lemma union_members fs : numbered fs -> exists ms, Permutation ms (filter is_member fs) /\
  union_items fs = map (fun f => lit (f_name f)) ms /\ map f_disc ms = map (fun i => Some (Z.of_nat i)) (seq 0 (length (filter is_member fs))).
Proof.
  intros (N & R). set (members := filter is_member fs) in *. set (n := length members).
  assert (Hd : forall f, In f members -> exists i, (i < n)%nat /\ f_disc f = Some (Z.of_nat i)).
  { intros f I. pose proof I as J. apply filter_In in J. destruct J as (_ & M). unfold is_member in M. destruct (f_disc f) as [d|] eqn:E; [|discriminate].
    pose proof (R f d I E). exists (Z.to_nat d). split; [unfold n; lia|]. rewrite Z2Nat.id by lia. reflexivity. }
  assert (Sur : forall i, (i < n)%nat -> exists f, In f members /\ f_disc f = Some (Z.of_nat i)).
  { intros i Hi. assert (In (Some (Z.of_nat i)) (map f_disc members)).
    { apply (NoDup_length_incl (l' := map (fun i => Some (Z.of_nat i)) (seq 0 n)) N).
      - rewrite !map_length, seq_length. reflexivity.
      - intros x Ix. apply in_map_iff in Ix. destruct Ix as (f & <- & If). destruct (Hd f If) as (j & Hj & ->). apply in_map_iff. exists j. split; [reflexivity|]. apply in_seq. lia.
      - apply in_map_iff. exists i. split; [reflexivity|]. apply in_seq. lia. }
    apply in_map_iff in H. destruct H as (f & E & If). eauto. }
  assert (X : forall is, (forall i, In i is -> (i < n)%nat) -> exists ms, incl ms members /\
    map (fun i => match find (fun f => match f_disc f with Some d => d =? Z.of_nat i | None => false end) (rev fs) with Some f => lit (f_name f) | None => lit "None" end) is =
      map (fun f => lit (f_name f)) ms /\ map f_disc ms = map (fun i => Some (Z.of_nat i)) is).
  { induction is as [|i is IH]; intros Hi; [exists []; split; [intros x []|split; reflexivity]|].
    destruct (IH (fun j J => Hi j (or_intror J))) as (ms & I1 & E1 & E2). destruct (Sur i (Hi i (or_introl eq_refl))) as (f & If & Ef).
    destruct (find (fun f => match f_disc f with Some d => d =? Z.of_nat i | None => false end) (rev fs)) as [g|] eqn:Fd.
    - pose proof (find_some _ _ Fd) as (Ig & Eg). destruct (f_disc g) as [d|] eqn:Dg; [|discriminate]. apply Z.eqb_eq in Eg. subst d.
      exists (g :: ms). split; [|split].
      + intros x [<-|Ix]; [|auto]. apply filter_In. split; [now apply in_rev|]. unfold is_member. rewrite Dg. reflexivity.
      + cbn [map]. rewrite Fd, E1. reflexivity.
      + cbn [map]. rewrite Dg, E2. reflexivity.
    - exfalso. apply filter_In in If. assert (Ir : In f (rev fs)) by (apply -> in_rev; apply If). pose proof (find_none _ _ Fd f Ir) as Q. cbn beta in Q. rewrite Ef, Z.eqb_refl in Q. discriminate Q. }
  destruct (X (seq 0 n)) as (ms & I1 & E1 & E2); [intros i Hi; apply in_seq in Hi; lia|].
  exists ms. split; [|split; [exact E1|exact E2]].
  apply NoDup_Permutation_bis; [| |exact I1].
  - apply (NoDup_map_inv f_disc). rewrite E2. apply FinFun.Injective_map_NoDup; [|apply seq_NoDup]. intros a b E. injection E as E. lia.
  - pose proof (f_equal (@length _) E2) as L. rewrite !map_length, seq_length in L. unfold n in L. lia.
Qed.

Definition tag_of (f : field) : Z := match f_disc f with Some d => d | None => 0 end.
Definition is_parts (k : nat) (off : Z) (ms : list field) : list (list str * list str) :=
  map (fun f => (is_text k (lit (f_name f)) off (tag_of f), [lit ("is_" ++ f_name f)])) ms.
Lemma is_texts_parts k off ms : forall i len, map f_disc ms = map (fun i => Some (Z.of_nat i)) (seq i len) ->
  is_texts k off (Z.of_nat i) (map (fun f => lit (f_name f)) ms) = flat_map fst (is_parts k off ms).
Proof.
  induction ms as [|f ms IH]; intros i [|len] E; try discriminate E; [reflexivity|]. cbn [map seq] in E. injection E as E1 E2.
  cbn [map is_texts is_parts flat_map fst]. unfold tag_of at 1. rewrite E1. f_equal. fold (is_parts k off ms).
  rewrite <- (IH (S i) len E2). f_equal. lia.
Qed.

(** ** The parts of a class *)
Section made.
  Context (w : world) (fl : Z -> str) (nm : string -> string -> names) (k : nat) (cls c : str) (group : bool) (sn : struct_node).

  Definition field_parts (f : field) : list (list str * list str) :=
    match f with
    | FSlot n _ _ _ _ _ _ => [(field_text fl k (nm "" n) f, field_methods f)]
    | FGroup n _ disc nullable _ fs =>
        if nullable then [(field_text fl k (nm "" n) f, field_methods f)]
        else [(def_property k (lit n) (group_body (nm "" n) disc), [lit n]); (like_text fl k (lit n) fs, [like_name (lit n)])]
    end.
  Definition ctor_parts : list (list str * list str) :=
    if group then []
    else [(new_text fl nm k sn, [lit "__new"]); (init_text fl k cls sn, [lit "__init__"])] ++
         map (fun f => (new_union_text fl k cls sn f, [lit ("new_" ++ f_name f)])) (filter is_member (sn_fields sn)).
  Definition union_parts (ms : list field) : list (list str * list str) :=
    match sn_utag sn with Some u => is_parts k (u * 2) ms ++ [([blank_line k], [])] | None => [] end.
  Definition parts (ms : list field) : list (list str * list str) := union_parts ms ++ flat_map field_parts (sn_fields sn) ++ ctor_parts.

  Lemma flat_map_flat_map {A B C} (g : B -> list C) (h : A -> list B) l : flat_map g (flat_map h l) = flat_map (fun x => flat_map g (h x)) l.
  Proof. induction l as [|x l IH]; [reflexivity|]. cbn [flat_map]. rewrite flat_map_app, IH. reflexivity. Qed.
  Lemma flat_map_map {A B C} (g : B -> list C) (h : A -> B) l : flat_map g (map h l) = flat_map (fun x => g (h x)) l.
  Proof. induction l as [|x l IH]; [reflexivity|]. cbn [map flat_map]. rewrite IH. reflexivity. Qed.
  Lemma flat_map_one {A B} (h : A -> B) l : flat_map (fun x => [h x]) l = map h l.
  Proof. induction l as [|x l IH]; [reflexivity|]. cbn [map flat_map app]. rewrite IH. reflexivity. Qed.

  Lemma parts_text ms : union_items (sn_fields sn) = map (fun f => lit (f_name f)) ms ->
    map f_disc ms = map (fun i => Some (Z.of_nat i)) (seq 0 (length (filter is_member (sn_fields sn)))) ->
    class_text fl nm k cls group sn = flat_map fst (parts ms).
  Proof.
    intros E1 E2. unfold class_text, parts. rewrite !flat_map_app. f_equal; [|f_equal].
    - unfold union_text, union_parts. destruct (sn_utag sn) as [u|]; [|reflexivity]. rewrite flat_map_app, E1. f_equal.
      exact (is_texts_parts k (u * 2) ms 0 _ E2).
    - rewrite flat_map_flat_map. apply flat_map_ext. intros f. destruct f as [n o d t off e v|n o d nl u fs]; cbn [field_parts f_name flat_map fst app]; [now rewrite app_nil_r|].
      destruct nl; cbn [flat_map fst app field_text]; rewrite ?app_nil_r; reflexivity.
    - unfold ctor_parts. destruct group; [reflexivity|]. unfold ctors_text. cbn [app flat_map fst]. do 2 f_equal. rewrite flat_map_map. reflexivity.
  Qed.
  Definition named (ms : list field) : list str :=
    map (fun f => lit ("is_" ++ f_name f)) ms ++ flat_map field_methods (sn_fields sn) ++
    if group then [] else [lit "__new"; lit "__init__"] ++ map (fun f => lit ("new_" ++ f_name f)) (filter is_member (sn_fields sn)).
  Lemma parts_names ms : (sn_utag sn = None -> ms = []) -> flat_map snd (parts ms) = named ms.
  Proof.
    intros U. unfold parts, named. rewrite !flat_map_app. f_equal; [|f_equal].
    - unfold union_parts. destruct (sn_utag sn) as [u|]; [|rewrite U; reflexivity]. rewrite flat_map_app. cbn [flat_map snd app]. rewrite app_nil_r. unfold is_parts.
      rewrite flat_map_map. cbn [snd]. apply flat_map_one.
    - rewrite flat_map_flat_map. apply flat_map_ext. intros f. destruct f as [n o d t off e v|n o d nl u fs]; cbn [field_parts flat_map snd app]; [apply app_nil_r|].
      destruct nl; reflexivity.
    - unfold ctor_parts. destruct group; [reflexivity|]. cbn [app flat_map snd]. do 2 f_equal. rewrite flat_map_map. cbn [snd]. apply flat_map_one.
  Qed.
  Lemma named_perm ms : Permutation ms (filter is_member (sn_fields sn)) -> Permutation (named ms) (class_methods group sn).
  Proof. intros P. unfold named, class_methods. apply Permutation_app_tail, Permutation_map, P. Qed.
End made.
