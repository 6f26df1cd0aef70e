(** Objects made by a constructor whose pointers are filled in the order of
    their slots are in the canonical encoding *)
From Verif Require Import Base Spec BaseFacts Ptr PtrFacts Segment SegmentFacts Builder Copy Enc EncFacts
  EncDen CopyFacts Endof EndofFacts Struct List Query StructFacts ObjFacts DumpFacts CopyList ArgSpec CopyListFacts Ctor CtorSpec CtorStore
  CtorSlots CtorFacts CtorErr CtorFinal CtorCall.
From Coq Require Import String ZifyBool ZifyNat Sorting.Sorted.
From Coq Require Import Lists.List.
Local Notation length := Datatypes.length.
Open Scope string_scope.
Open Scope Z_scope.
Ltac Zify.zify_post_hook ::= Z.div_mod_to_equations.

Notation vcs_of := (map (fun x => (x, content x))).

Lemma ptr_words_app a b off : Forall wfv a ->
  ptr_words (vcs_of (a ++ b)) off = (ptr_words (vcs_of a) off ++ ptr_words (vcs_of b) (off - blen a + blen (contents (vcs_of a)) / 8))%list.
Proof.
  intros H. revert off. induction H as [|v a W H IH]; intros off.
  - cbn [app map ptr_words]. change (blen (@nil value)) with 0. change (contents []) with (@nil byte).
    change (blen (@nil byte) / 8) with 0. f_equal. lia.
  - cbn [app map ptr_words]. rewrite IH, <- app_assoc. do 3 f_equal.
    rewrite blen_cons. unfold contents. cbn [map concat snd]. rewrite blen_app.
    pose proof (content_mod v W). lia.
Qed.

Lemma contents_app a b : contents (vcs_of (a ++ b)) = (contents (vcs_of a) ++ contents (vcs_of b))%list.
Proof. unfold contents. rewrite !map_app, concat_app. reflexivity. Qed.

Lemma nulls_words n : forall off, ptr_words (vcs_of (repeat VNull n)) off = zeros (8 * Z.of_nat n).
Proof.
  induction n as [|n IH]; intros off; [reflexivity|]. cbn [repeat map ptr_words]. rewrite IH.
  change (le_enc 8 (ptr_word VNull off)) with (zeros 8). rewrite <- zeros_add by lia. f_equal. lia.
Qed.
Lemma nulls_contents n : contents (vcs_of (repeat VNull n)) = [].
Proof. induction n as [|n IH]; [reflexivity|]. unfold contents in *. cbn [repeat map concat snd content]. exact IH. Qed.

Lemma sorted_snoc {A} (R : A -> A -> Prop) (l : list A) x : StronglySorted R (l ++ [x]) ->
  StronglySorted R l /\ Forall (fun y => R y x) l.
Proof.
  induction l as [|a l IH]; cbn [app]; intros H; [split; constructor|]. inversion H as [|? ? H1 H2]; subst.
  destruct (IH H1) as [A1 A2]. apply Forall_app in H2. destruct H2 as [H2 H3]. inversion H3; subst.
  split; constructor; assumption.
Qed.

Section Canon.
Variables ds ps : Z.
Hypothesis Hds : 0 <= ds < 2 ^ 16.
Hypothesis Hps : 0 <= ps < 2 ^ 16.

(** the fields of a canonical buffer whose last pointers are null *)
Lemma canon_split d vs n : Forall wfv vs ->
  content (VStruct d (vs ++ repeat VNull n)) =
  (d ++ (ptr_words (vcs_of vs) (blen vs + Z.of_nat n - 1) ++ zeros (8 * Z.of_nat n)) ++ contents (vcs_of vs))%list.
Proof.
  intros W. rewrite content_struct. rewrite ptr_words_app, contents_app, nulls_words, nulls_contents, app_nil_r by exact W.
  rewrite blen_app. unfold blen at 2. rewrite repeat_length. reflexivity.
Qed.

Lemma shape_canon buf tr : shape ds ps buf tr -> StronglySorted Z.lt (map fst tr) ->
  exists d vs n, blen d = 8 * ds /\ blen vs + Z.of_nat n = ps /\ Forall wfv vs /\
    buf = content (VStruct d (vs ++ repeat VNull n)) /\
    (forall k, 0 <= k -> Forall (fun j => j < k) (map fst tr) -> blen vs <= k \/ blen vs = 0) /\
    Forall (fun v => v = VNull \/ In v (map snd tr)) vs.
Proof.
  induction 1 as [|buf tr i b H IH Hi Hb|buf tr k v H IH Hk W]; intros S.
  - exists (zeros (8 * ds)), [], (Z.to_nat ps). split; [apply blen_zeros; lia|]. split; [change (blen (@nil value)) with 0; lia|].
    split; [constructor|]. split; [|split; [intros; right; reflexivity|constructor]].
    rewrite canon_split by constructor. cbn [map ptr_words app]. 
    change (contents []) with (@nil byte). rewrite app_nil_r. rewrite Z2Nat.id by lia. rewrite <- zeros_add by lia. f_equal. lia.
  - destruct (IH S) as (d & vs & n & Ld & Lv & Wv & E & K & V).
    exists (upd d i b), vs, n. split; [rewrite blen_upd; lia|]. repeat (split; [assumption|]). split; [|auto].
    rewrite E, !canon_split by exact Wv. apply upd_app1; lia.
  - rewrite map_app in S. cbn [map fst] in S. apply sorted_snoc in S. destruct S as [S1 S2].
    destruct (IH S1) as (d & vs & n & Ld & Lv & Wv & E & K & V).
    assert (Kv : blen vs <= k).
    { destruct (K k ltac:(lia) S2) as [X|X]; lia. }
    (* the new pointers: vs, nulls up to k, v *)
    set (m := Z.to_nat (k - blen vs)). set (n' := Z.to_nat (ps - k - 1)).
    assert (En : n = (m + S n')%nat) by lia.
    set (vs' := (vs ++ repeat VNull m ++ [v])%list).
    assert (Lm : blen (repeat VNull m) = Z.of_nat m) by (unfold blen; rewrite repeat_length; reflexivity).
    assert (Wm : Forall wfv (repeat VNull m)).
    { apply Forall_forall. intros x Hx. apply repeat_spec in Hx. subst x. split; exact I. }
    exists d, vs', n'. split; [exact Ld|].
    assert (Lv' : blen vs' = k + 1).
    { unfold vs'. rewrite !blen_app, Lm. change (blen [v]) with 1. lia. }
    split; [lia|]. assert (Wv' : Forall wfv vs').
    { unfold vs'. apply Forall_app. split; [exact Wv|]. apply Forall_app. split; [exact Wm|]. constructor; [exact W|constructor]. }
    split; [exact Wv'|]. split; [|split].
    + rewrite canon_split by exact Wv'. rewrite E, canon_split by exact Wv.
      set (cs := contents (vcs_of vs)).
      assert (Cm : blen cs mod 8 = 0).
      { unfold cs. clear - Wv. induction Wv as [|x l Wx Wl IH]; [reflexivity|].
        unfold contents in *. cbn [map concat snd]. rewrite blen_app. pose proof (content_mod x Wx). lia. }
      assert (BL : blen (d ++ (ptr_words (vcs_of vs) (blen vs + Z.of_nat n - 1) ++ zeros (8 * Z.of_nat n)) ++ cs)%list = 8 * (ds + ps) + blen cs).
      { rewrite !blen_app, blen_ptr_words, blen_zeros by lia. unfold blen at 2. rewrite map_length. fold (blen vs). lia. }
      rewrite BL.
      replace ((8 * (ds + ps) + blen cs - 8 * (ds + k) - 8) / 8) with (ps - k - 1 + blen cs / 8) by lia.
      assert (CS : contents (vcs_of vs') = (cs ++ content v)%list).
      { unfold vs'. rewrite !contents_app, nulls_contents. cbn [app]. unfold contents at 2. cbn [map concat snd]. rewrite app_nil_r. reflexivity. }
      assert (PW : ptr_words (vcs_of vs') (blen vs' + Z.of_nat n' - 1) =
         (ptr_words (vcs_of vs) (blen vs + Z.of_nat n - 1) ++ zeros (8 * Z.of_nat m) ++ le_enc 8 (ptr_word v (ps - k - 1 + blen cs / 8)))%list).
      { unfold vs' at 1. rewrite ptr_words_app by exact Wv. rewrite ptr_words_app by exact Wm. rewrite nulls_words, nulls_contents.
        fold cs. cbn [map ptr_words]. rewrite app_nil_r. rewrite Lm. change (blen (@nil byte) / 8) with 0.
        replace (blen vs' + Z.of_nat n' - 1) with (blen vs + Z.of_nat n - 1) by lia. do 4 f_equal.
 lia. }
      rewrite CS, PW.
      set (A := ptr_words (vcs_of vs) (blen vs + Z.of_nat n - 1)).
      assert (LA : blen A = 8 * blen vs).
      { unfold A. rewrite blen_ptr_words. unfold blen at 1. rewrite map_length. reflexivity. }
      replace (zeros (8 * Z.of_nat n)) with (zeros (8 * Z.of_nat m) ++ zeros 8 ++ zeros (8 * Z.of_nat n'))%list.
      2:{ rewrite <- !zeros_add by lia. f_equal. lia. }
      set (X := le_enc 8 _). assert (LX : blen X = 8) by (unfold X; rewrite blen_le_enc; reflexivity).
      replace (8 * (ds + k)) with (blen (d ++ A ++ zeros (8 * Z.of_nat m))%list).
      2:{ rewrite !blen_app, LA, blen_zeros by lia. lia. }
      replace (d ++ (A ++ zeros (8 * Z.of_nat m) ++ zeros 8 ++ zeros (8 * Z.of_nat n')) ++ cs)%list with
        ((d ++ A ++ zeros (8 * Z.of_nat m)) ++ zeros 8 ++ (zeros (8 * Z.of_nat n') ++ cs))%list by (rewrite <- !app_assoc; reflexivity).
      rewrite upd_exact by (rewrite LX; reflexivity). rewrite <- !app_assoc. reflexivity.
    + intros j Hj F. rewrite map_app in F. apply Forall_app in F. destruct F as [_ F]. apply Forall_inv in F. left. cbn [fst] in F. lia.
    + unfold vs'. rewrite map_app. apply Forall_app. split.
      * eapply Forall_impl; [|exact V]. intros x [->|Hx]; [left; reflexivity|right; apply in_or_app; left; exact Hx].
      * apply Forall_app. split; [apply Forall_forall; intros x Hx; apply repeat_spec in Hx; left; exact Hx|].
        constructor; [|constructor]. right. apply in_or_app. right. left. reflexivity.
Qed.
End Canon.


(** an object whose buffer is exactly the canonical encoding of its value *)
Definition canonical (o : obj) (d : bytes) (vs : list value) : Prop :=
  obj_den o d vs /\ sbuf (o_seg o) = content (VStruct d vs).

Lemma canonical_compact o d vs : canonical o d vs -> o_off o = 0 -> blen (content (VStruct d vs)) <= 2 ^ 32 ->
  Forall packed vs ->
  forall fuel, (vdepth (VStruct d vs) <= fuel)%nat ->
    o_get_end fuel o = Ok (slen (o_seg o)) /\ o_is_compact fuel o = Ok true.
Proof.
  intros (O & B) Z0 Hl P fuel Hf.
  assert (G : o_get_end fuel o = Ok (slen (o_seg o))).
  { destruct fuel as [|fuel]; [cbn in Hf; lia|]. rewrite (get_end_eq o d vs fuel O).
    pose proof (obj_wf _ _ _ O) as W. apply (proj1 (vall_struct _ _ _)) in W. destruct W as [(W1 & W2 & W3) W4].
    destruct (obj_sizes _ _ _ O) as [S1 S2].
    assert (AT : at_ (o_seg o) 0 (content (VStruct d vs))).
    { unfold at_, slen. rewrite B. split; [lia|]. split; [lia|]. apply sub_all. }
    pose proof (endof_body_enc d vs (o_seg o) 0 fuel) as EB. unfold endof_struct in EB.
    rewrite Z0, <- S2.
    replace (0 + 8 * o_ds o) with (0 + blen d / 8 * 8) by lia.
    replace (0 + blen d / 8 * 8 + 8 * blen vs) with (0 + blen d / 8 * 8 + blen vs * 8) by lia.
    rewrite EB; try assumption; try lia.
    - f_equal. unfold slen. rewrite B. lia.
    - rewrite Forall_forall in *. intros x Hx. apply endof_enc; [apply W4, Hx|apply P, Hx].
    - cbn [vdepth] in Hf. lia. }
  split; [exact G|]. unfold o_is_compact. rewrite G. cbn [bind]. f_equal.
  pose proof (blen_nonneg (sbuf (o_seg o))). unfold slen. lia.
Qed.

Lemma shape_wf ds ps buf tr : shape ds ps buf tr -> Forall wfv (map snd tr).
Proof.
  induction 1 as [|buf tr i b H IH Hi Hb|buf tr k v H IH Hk W]; [constructor|exact IH|].
  rewrite map_app. apply Forall_app. split; [exact IH|]. constructor; [exact W|constructor].
Qed.

Lemma combine_fst {A B} (l : list A) : forall l' : list B, exists n, map fst (combine l l') = firstn n l.
Proof.
  induction l as [|a l IH]; intros [|b l']; try (exists 0%nat; reflexivity).
  destruct (IH l') as [n E]. exists (S n). cbn [combine map fst firstn]. rewrite E. reflexivity.
Qed.
Lemma sorted_firstn {A} (R : A -> A -> Prop) (l : list A) : StronglySorted R l -> forall n, StronglySorted R (firstn n l).
Proof.
  induction 1 as [|a l H IH F]; intros [|n]; cbn [firstn]; try constructor; [apply IH|].
  apply Forall_forall. intros x Hx. rewrite Forall_forall in F. apply F. rewrite <- (firstn_skipn n l). apply in_or_app. left. exact Hx.
Qed.

(** an object made by a constructor which fills its pointers in slot order *)
Lemma made_canonical sn kw vals xs o d vs :
  layout_ok sn -> made sn kw vals xs o d vs -> call_size sn kw vals <= 2 ^ 32 ->
  StronglySorted Z.lt (slots_of ptr_slots (sn_fields sn) xs) ->
  exists d' vs', canonical o d' vs' /\ slen (o_seg o) = call_size sn kw vals /\
    ((forall f x v, In f (filter visible (sn_fields sn)) -> assoc kw (f_name f) = Some x -> In v (vals (f_name f)) -> packed v) ->
     forall fuel, (vdepth (VStruct d' vs') <= fuel)%nat ->
      o_get_end fuel o = Ok (slen (o_seg o)) /\ o_is_compact fuel o = Ok true).
Proof.
  intros L (buf & ws & -> & _ & SH & BL & MV) HS SO.
  assert (S : StronglySorted Z.lt (map fst (combine (slots_of ptr_slots (sn_fields sn) xs) ws))).
  { destruct (combine_fst (slots_of ptr_slots (sn_fields sn) xs) ws) as [n ->]. apply sorted_firstn, SO. }
  destruct (shape_canon _ _ (lo_ds _ L) (lo_ps _ L) _ _ SH S) as (d' & vs' & n & Ld & Lv & Wv & E & _ & V).
  pose proof (lo_ds _ L) as Hds. pose proof (lo_ps _ L) as Hps.
  exists d', (vs' ++ repeat VNull n)%list.
  assert (LV : blen (vs' ++ repeat VNull n) = sn_ps sn).
  { rewrite blen_app. unfold blen at 2. rewrite repeat_length. exact Lv. }
  assert (WF : wfv (VStruct d' (vs' ++ repeat VNull n))).
  { apply (proj2 (vall_struct _ _ _)). split; [cbn [wf1]; repeat split; lia|]. apply Forall_app. split; [exact Wv|].
    apply Forall_forall. intros x Hx. apply repeat_spec in Hx. subst x. split; exact I. }
  assert (C : canonical (root (sn_ds sn) (sn_ps sn) buf) d' (vs' ++ repeat VNull n)).
  { split; [|exact E].
    assert (A : at_ (seg_of buf) 0 (content (VStruct d' (vs' ++ repeat VNull n)))).
    { unfold at_, slen. cbn [seg_of sbuf]. rewrite <- E. split; [lia|]. split; [lia|]. apply sub_all. }
    pose proof (enc_obj _ _ _ _ WF (Z.le_refl 0) ltac:(rewrite <- E; lia) A) as O.
    unfold root. rewrite LV in O. replace (blen d' / 8) with (sn_ds sn) in O by lia.
    replace (0 + sn_ds sn * 8) with (0 + 8 * sn_ds sn) by lia. exact O. }
  split; [exact C|]. split; [exact BL|]. intros PK.
  apply (canonical_compact _ _ _ C); [reflexivity|rewrite <- E; lia|].
  assert (PN : packed VNull) by (split; exact I).
  apply Forall_app. split; [|apply Forall_forall; intros x Hx; apply repeat_spec in Hx; subst x; exact PN].
  eapply Forall_impl; [|exact V]. intros x [->|Hx]; [exact PN|].
  apply in_map_iff in Hx. destruct Hx as ([k v] & <- & Hx). apply in_combine_r in Hx. cbn [snd].
  destruct (MV _ Hx) as [->|(f & y & If & A & Iv)]; [exact PN|]. exact (PK f y v If A Iv).
Qed.

Section Compact.
Variable fuel : nat.
Hypothesis Hf : (2 <= fuel)%nat.
Variable sn : struct_node.
Hypothesis L : layout_ok sn.
Notation top := (filter visible (sn_fields sn)).

Lemma ctor_no_gaps kw vals : call_ok fuel top kw vals -> (length (members_given top kw) <= 1)%nat -> call_size sn kw vals <= 2 ^ 32 ->
  exists o, ctor fuel sn kw = Ok o /\ o_off o = 0 /\ soffs (o_seg o) = None /\ slen (o_seg o) = call_size sn kw vals.
Proof.
  intros C M HS. destruct (ctor_made fuel Hf sn L kw vals C M HS) as (o & d & vs & E & _ & _ & _ & _ & (buf & ws & -> & _ & _ & BL & _) & _).
  eexists. split; [exact E|]. repeat (split; [reflexivity|]). exact BL.
Qed.

Lemma ctor_compact kw vals : call_ok fuel top kw vals -> (length (members_given top kw) <= 1)%nat -> call_size sn kw vals <= 2 ^ 32 ->
  StronglySorted Z.lt (slots_of ptr_slots (sn_fields sn) (map (arg_for kw) top)) ->
  exists o d vs, ctor fuel sn kw = Ok o /\ obj_den o d vs /\
    scope_reads o (sn_utag sn) (sn_fields sn) (map (arg_for kw) top) /\
    sbuf (o_seg o) = content (VStruct d vs) /\
    ((forall f x v, In f top -> assoc kw (f_name f) = Some x -> In v (vals (f_name f)) -> packed v) ->
     forall fuel', (vdepth (VStruct d vs) <= fuel')%nat ->
       o_get_end fuel' o = Ok (slen (o_seg o)) /\ o_is_compact fuel' o = Ok true).
Proof.
  intros C M HS SO. destruct (ctor_made fuel Hf sn L kw vals C M HS) as (o & d & vs & E & _ & _ & _ & SR & MD & _).
  destruct (made_canonical _ _ _ _ _ _ _ L MD HS SO) as (d' & vs' & (O & B) & _ & P).
  exists o, d', vs'. auto 10.
Qed.

Lemma new_compact kw vals tag dd : In tag top -> f_disc tag = Some dd ->
  (forall f, In f top -> no_key (f_name tag, f_order tag) f) ->
  call_ok fuel (filter (fun f => negb (is_member f) || String.eqb (f_name f) (f_name tag)) top) kw vals ->
  (assoc kw (f_name tag) = None -> has_default tag) ->
  call_size sn kw vals <= 2 ^ 32 ->
  StronglySorted Z.lt (slots_of ptr_slots (sn_fields sn) (map (new_arg kw tag) top)) ->
  exists o d vs, ctor_union fuel sn tag kw = Ok o /\ obj_den o d vs /\
    scope_reads o (sn_utag sn) (sn_fields sn) (map (new_arg kw tag) top) /\
    sbuf (o_seg o) = content (VStruct d vs) /\
    ((forall f x v, In f top -> assoc kw (f_name f) = Some x -> In v (vals (f_name f)) -> packed v) ->
     forall fuel', (vdepth (VStruct d vs) <= fuel')%nat ->
       o_get_end fuel' o = Ok (slen (o_seg o)) /\ o_is_compact fuel' o = Ok true).
Proof.
  intros HT HD NK C HDT HS SO.
  destruct (new_made fuel Hf sn L kw vals tag dd HT HD NK C HDT HS) as (o & d & vs & E & _ & _ & _ & _ & SR & MD & _).
  destruct (made_canonical _ _ _ _ _ _ _ L MD HS SO) as (d' & vs' & (O & B) & _ & P).
  exists o, d', vs'. auto 10.
Qed.
End Compact.

Lemma plain_slots fs : forall xs, length xs = length fs ->
  Forall (fun f => match f with FSlot _ _ None t _ _ _ => t <> TVoid | _ => False end) fs ->
  slots_of ptr_slots fs xs =
  flat_map (fun f => match f with FSlot _ _ _ t off _ _ => if ty_pointer t then [off] else [] | _ => [] end) fs.
Proof.
  induction fs as [|f fs IH]; intros [|x xs] E F; cbn [length] in E; try discriminate; [reflexivity|].
  inversion F as [|? ? F1 F2]; subst. specialize (IH xs (eq_add_S _ _ E) F2).
  destruct f as [n i [dc|] t off ex d|]; try contradiction.
  assert (V : visible (FSlot n i None t off ex d) = true).
  { destruct t; try reflexivity. congruence. }
  cbn [slots_of flat_map]. rewrite V. cbn [is_member f_disc andb ptr_slots]. rewrite <- IH. reflexivity.
Qed.
