(** Lemmas about values and their canonical encoding. *)
From Verif Require Import Base BaseFacts Spec Ptr PtrFacts Enc.
From Coq Require Import ZifyBool.

Ltac Zify.zify_post_hook ::= Z.div_mod_to_equations.

(** ** induction on values *)

Section value_ind'.
  Variable P : value -> Prop.
  Hypothesis Hnull : P VNull.
  Hypothesis Hstruct : forall d vs, Forall P vs -> P (VStruct d vs).
  Hypothesis Hlist : forall t c b, P (VList t c b).
  Hypothesis Hptrs : forall vs, Forall P vs -> P (VPtrs vs).
  Hypothesis Hcomp : forall ds ps items slack,
    Forall (fun it => Forall P (snd it)) items -> P (VComp ds ps items slack).

  Fixpoint value_ind' (v : value) : P v :=
    match v with
    | VNull => Hnull
    | VStruct d vs =>
        Hstruct d vs
          ((fix go l : Forall P l :=
              match l with
              | [] => Forall_nil _
              | x :: r => Forall_cons _ (value_ind' x) (go r)
              end) vs)
    | VList t c b => Hlist t c b
    | VPtrs vs =>
        Hptrs vs
          ((fix go l : Forall P l :=
              match l with
              | [] => Forall_nil _
              | x :: r => Forall_cons _ (value_ind' x) (go r)
              end) vs)
    | VComp ds ps items slack =>
        Hcomp ds ps items slack
          ((fix goi l : Forall (fun it => Forall P (snd it)) l :=
              match l with
              | [] => Forall_nil _
              | it :: r =>
                  Forall_cons _
                    ((fix go l : Forall P l :=
                        match l with
                        | [] => Forall_nil _
                        | x :: r => Forall_cons _ (value_ind' x) (go r)
                        end) (snd it))
                    (goi r)
              end) items)
    end.
End value_ind'.

(** ** vall *)

Lemma vall_list P l :
  (fix all l := match l with [] => True | x :: r => vall P x /\ all r end) l
  <-> Forall (vall P) l.
Proof.
  induction l as [|x l IH]; split; intros H; auto.
  - destruct H as [H1 H2]. constructor; [exact H1|]. apply IH, H2.
  - inversion H; subst. split; [assumption|]. apply IH. assumption.
Qed.

Lemma vall_items P items :
  (fix alli l :=
     match l with
     | [] => True
     | (_, vs) :: r =>
         (fix all l := match l with [] => True | x :: r => vall P x /\ all r end) vs
         /\ alli r
     end) items
  <-> Forall (fun it : bytes * list value => Forall (vall P) (snd it)) items.
Proof.
  induction items as [|[d vs] l IH]; split; intros H; auto.
  - destruct H as [H1 H2]. constructor; [apply vall_list, H1|]. apply IH, H2.
  - inversion H; subst. split; [apply vall_list; assumption|]. apply IH. assumption.
Qed.

Lemma vall_root P v : vall P v -> P v.
Proof. destruct v; intros [H _]; exact H. Qed.

Lemma vall_struct P d vs : vall P (VStruct d vs) <-> P (VStruct d vs) /\ Forall (vall P) vs.
Proof. cbn [vall]. rewrite vall_list. reflexivity. Qed.

Lemma vall_ptrs P vs : vall P (VPtrs vs) <-> P (VPtrs vs) /\ Forall (vall P) vs.
Proof. cbn [vall]. rewrite vall_list. reflexivity. Qed.

Lemma vall_comp P ds ps items sl :
  vall P (VComp ds ps items sl) <->
  P (VComp ds ps items sl) /\ Forall (fun it => Forall (vall P) (snd it)) items.
Proof. cbn [vall]. rewrite vall_items. reflexivity. Qed.

Lemma vall_null P : vall P VNull <-> P VNull.
Proof. cbn. tauto. Qed.

Lemma vall_vlist P t c b : vall P (VList t c b) <-> P (VList t c b).
Proof. cbn. tauto. Qed.

Lemma vall_impl (P Q : value -> Prop) v : (forall x, P x -> Q x) -> vall P v -> vall Q v.
Proof.
  intros HPQ. induction v as [|d vs IH|t c b|vs IH|ds ps items sl IH] using value_ind'.
  - rewrite !vall_null. auto.
  - rewrite !vall_struct. intros [H1 H2]. split; [auto|].
    rewrite Forall_forall in *. auto.
  - rewrite !vall_vlist. auto.
  - rewrite !vall_ptrs. intros [H1 H2]. split; [auto|].
    rewrite Forall_forall in *. auto.
  - rewrite !vall_comp. intros [H1 H2]. split; [auto|].
    rewrite Forall_forall in *. intros it Hit.
    specialize (IH it Hit). specialize (H2 it Hit).
    rewrite Forall_forall in *. auto.
Qed.

(** ** lengths *)

Definition vcs_of (vs : list value) := map (fun x => (x, content x)) vs.
Definition ics_of (items : list (bytes * list value)) :=
  map (fun it : bytes * list value => (fst it, vcs_of (snd it))) items.

Lemma content_struct d vs :
  content (VStruct d vs) = d ++ ptr_words (vcs_of vs) (blen vs - 1) ++ contents (vcs_of vs).
Proof. reflexivity. Qed.
Lemma content_ptrs vs :
  content (VPtrs vs) = ptr_words (vcs_of vs) (blen vs - 1) ++ contents (vcs_of vs).
Proof. reflexivity. Qed.
Lemma content_comp ds ps items slack :
  content (VComp ds ps items slack) =
  le_enc 8 (w_struct (blen items) ds ps) ++
  item_words ds ps (ics_of items) ((ds + ps) * blen items + blen slack / 8) ++
  slack ++ icontents (ics_of items).
Proof. reflexivity. Qed.
Lemma content_list t c b : content (VList t c b) = pad8 b.
Proof. reflexivity. Qed.

Lemma blen_ptr_words vcs off : blen (ptr_words vcs off) = 8 * blen vcs.
Proof.
  revert off. induction vcs as [|[v c] r IH]; intros off; cbn [ptr_words].
  - reflexivity.
  - rewrite blen_app, blen_le_enc, IH, blen_cons. lia.
Qed.

Lemma blen_vcs_of vs : blen (vcs_of vs) = blen vs.
Proof. apply blen_map. Qed.

Lemma blen_ics_of items : blen (ics_of items) = blen items.
Proof. apply blen_map. Qed.

Lemma contents_cons v c r : contents ((v, c) :: r) = c ++ contents r.
Proof. reflexivity. Qed.

Lemma icontents_cons d vcs r : icontents ((d, vcs) :: r) = contents vcs ++ icontents r.
Proof. reflexivity. Qed.

Lemma blen_item_words ds ps ics rem :
  Forall (fun it => blen (fst it) = 8 * ds /\ blen (snd it) = ps) ics ->
  blen (item_words ds ps ics rem) = 8 * ((ds + ps) * blen ics).
Proof.
  revert rem. induction ics as [|[d vcs] r IH]; intros rem H; cbn [item_words].
  - unfold blen. cbn [length]. lia.
  - inversion H as [|? ? [H1 H2] H3]; subst. cbn [fst snd] in *.
    rewrite !blen_app, blen_ptr_words, IH, blen_cons by assumption. lia.
Qed.

Lemma ics_of_sizes ds ps items :
  Forall (fun it => blen (fst it) = 8 * ds /\ blen (snd it) = ps) items ->
  Forall (fun it => blen (fst it) = 8 * ds /\ blen (snd it) = ps) (ics_of items).
Proof.
  intros H. unfold ics_of. rewrite Forall_map. cbn [fst snd].
  eapply Forall_impl; [|exact H]. intros [d vs] [H1 H2]. cbn [fst snd] in *.
  rewrite blen_vcs_of. auto.
Qed.

Lemma blen_pad8 b : blen (pad8 b) = blen b + (- blen b) mod 8.
Proof. unfold pad8. rewrite blen_app, blen_zeros by lia. lia. Qed.

Lemma blen_pad8_mod b : blen (pad8 b) mod 8 = 0.
Proof. rewrite blen_pad8. lia. Qed.

Lemma contents_mod vcs : Forall (fun vc => blen (snd vc) mod 8 = 0) vcs -> blen (contents vcs) mod 8 = 0.
Proof.
  induction 1 as [|[v c] r H1 H2 IH]; [reflexivity|].
  rewrite contents_cons, blen_app. cbn [snd] in H1. lia.
Qed.

Lemma icontents_mod ics :
  Forall (fun it => Forall (fun vc => blen (snd vc) mod 8 = 0) (snd it)) ics ->
  blen (icontents ics) mod 8 = 0.
Proof.
  induction 1 as [|[v c] r H1 H2 IH]; [reflexivity|].
  rewrite icontents_cons, blen_app. cbn [snd] in H1. apply contents_mod in H1. lia.
Qed.

Lemma content_mod v : wfv v -> blen (content v) mod 8 = 0.
Proof.
  unfold wfv.
  induction v as [|d vs IH|t c b|vs IH|ds ps items sl IH] using value_ind'; intros H.
  - reflexivity.
  - rewrite content_struct, !blen_app, blen_ptr_words, blen_vcs_of.
    apply vall_struct in H. destruct H as [[H1 _] H2].
    assert (E : blen (contents (vcs_of vs)) mod 8 = 0).
    { apply contents_mod. unfold vcs_of. rewrite Forall_map. cbn [snd].
      rewrite Forall_forall in *. auto. }
    lia.
  - rewrite content_list. apply blen_pad8_mod.
  - rewrite content_ptrs, !blen_app, blen_ptr_words, blen_vcs_of.
    apply vall_ptrs in H. destruct H as [_ H2].
    assert (E : blen (contents (vcs_of vs)) mod 8 = 0).
    { apply contents_mod. unfold vcs_of. rewrite Forall_map. cbn [snd].
      rewrite Forall_forall in *. auto. }
    lia.
  - apply vall_comp in H. destruct H as [(Hd & Hp & Hi & _ & Hs & _) H2].
    rewrite content_comp, !blen_app, blen_le_enc.
    rewrite blen_item_words by (apply ics_of_sizes; exact Hi).
    assert (E : blen (icontents (ics_of items)) mod 8 = 0).
    { apply icontents_mod. unfold ics_of. rewrite Forall_map. cbn [snd].
      rewrite Forall_forall in *. intros it Hit.
      specialize (IH it Hit). specialize (H2 it Hit).
      unfold vcs_of. rewrite Forall_map. cbn [snd].
      rewrite Forall_forall in *. auto. }
    set (q := (ds + ps) * blen (ics_of items)). lia.
Qed.

Lemma blen_contents_cons v vs :
  blen (contents (vcs_of (v :: vs))) = blen (content v) + blen (contents (vcs_of vs)).
Proof. cbn [vcs_of map]. rewrite contents_cons, blen_app. reflexivity. Qed.

(** ** depth *)

Lemma list_max_in n l : In n l -> (n <= list_max l)%nat.
Proof.
  induction l as [|m l IH]; cbn [In list_max fold_right]; intros H; [contradiction|].
  destruct H as [->|H]; [lia|]. specialize (IH H). unfold list_max in *. lia.
Qed.

Lemma vdepth_pos v : (1 <= vdepth v)%nat.
Proof. destruct v; cbn; lia. Qed.

(** ** den gives well-formed values *)

Scheme den_mut := Induction for den Sort Prop
  with den_ptrs_mut := Induction for den_ptrs Sort Prop
  with den_items_mut := Induction for den_items Sort Prop.
Combined Scheme den_all_ind from den_mut, den_ptrs_mut, den_items_mut.

Lemma bytes_at_some s pos n b :
  bytes_at s pos n = Some b ->
  0 <= pos /\ 0 <= n /\ pos + n <= slen s /\ b = sub (sbuf s) pos n /\ blen b = n.
Proof.
  unfold bytes_at, slen. destruct (_ && _ && _) eqn:E; [|discriminate].
  intros [= <-]. rewrite blen_sub by lia. repeat split; lia.
Qed.

Lemma bytes_at_ok s pos n :
  0 <= pos -> 0 <= n -> pos + n <= slen s -> bytes_at s pos n = Some (sub (sbuf s) pos n).
Proof. intros. unfold bytes_at. destruct (_ && _ && _) eqn:E; [reflexivity|lia]. Qed.

Lemma word_at_some s pos p :
  word_at s pos = Some p ->
  0 <= pos /\ pos + 8 <= slen s /\ p = fdec Fq (sub (sbuf s) pos 8).
Proof.
  unfold word_at, slen. destruct (_ && _) eqn:E; [|discriminate].
  intros [= <-]. repeat split; try lia.
Qed.

Lemma word_at_ok s pos :
  0 <= pos -> pos + 8 <= slen s -> word_at s pos = Some (fdec Fq (sub (sbuf s) pos 8)).
Proof. intros. unfold word_at. destruct (_ && _) eqn:E; [reflexivity|lia]. Qed.

Lemma den_ptrs_len s pos n vs : den_ptrs s pos n vs -> length vs = n.
Proof.
  intros H. induction H; cbn; auto.
Qed.

Lemma den_ptrs_bounds s pos n vs :
  den_ptrs s pos n vs -> 0 <= pos /\ pos + 8 * Z.of_nat n <= slen s.
Proof.
  intros H. induction H as [pos H|pos n p v vs H1 H2 H3 IH]; [lia|].
  apply word_at_some in H1. lia.
Qed.

Lemma den_items_len s pos ds ps n items : den_items s pos ds ps n items -> length items = n.
Proof. intros H. induction H; cbn; auto. Qed.

Lemma den_items_sizes s pos ds ps n items :
  0 <= ps -> den_items s pos ds ps n items ->
  Forall (fun it => blen (fst it) = 8 * ds /\ blen (snd it) = ps) items.
Proof.
  intros Hps H. induction H as [|pos ds ps n data vs items H1 H2 H3 IH]; constructor; auto.
  cbn [fst snd]. apply bytes_at_some in H1. apply den_ptrs_len in H2.
  unfold blen at 2. lia.
Qed.

Lemma list_bytes_nonneg t c : 0 <= c -> 0 <= list_bytes t c.
Proof. intros. unfold list_bytes. ifs; lia. Qed.

Lemma den_wf_all s :
  (forall p pos v, den s p pos v -> wfv v) /\
  (forall pos n vs, den_ptrs s pos n vs -> Forall wfv vs) /\
  (forall pos ds ps n items, den_items s pos ds ps n items ->
     Forall (fun it => Forall wfv (snd it)) items).
Proof.
  apply den_all_ind; unfold wfv.
  - intros. exact (conj I I).
  - intros p pos data vs Hp Hk Hb Hd IH.
    apply vall_struct. split; [|exact IH].
    apply bytes_at_some in Hb. apply den_ptrs_len in Hd.
    pose proof (p_dsize_range p). pose proof (p_psize_range p).
    unfold wf1. unfold blen at 3. lia.
  - intros p pos body Hk Ht Hb. apply vall_vlist.
    apply bytes_at_some in Hb.
    pose proof (p_ltag_range p). pose proof (p_lcount_range p).
    unfold wf1. lia.
  - intros p pos vs Hk Ht H0 H1 Hd IH. apply vall_ptrs. split; [|exact IH].
    apply den_ptrs_len in Hd. pose proof (p_lcount_range p). unfold wf1, blen. lia.
  - intros p pos tag items slack Hk Ht Hw Htk Hto Hd IH Hb.
    apply vall_comp. split; [|exact IH].
    pose proof (p_dsize_range tag). pose proof (p_psize_range tag).
    pose proof (p_off_range tag). pose proof (p_lcount_range p).
    assert (Hps : 0 <= p_psize tag) by lia.
    pose proof (den_items_sizes _ _ _ _ _ _ Hps Hd) as Hsz.
    apply den_items_len in Hd. apply bytes_at_some in Hb.
    assert (El : blen items = p_off tag) by (unfold blen; lia).
    unfold wf1. rewrite El. repeat split; try assumption; try lia;
      set (q := (p_dsize tag + p_psize tag) * p_off tag) in *; lia.
  - intros. assumption.
  - constructor.
  - intros. constructor; assumption.
  - constructor.
  - intros. constructor; assumption.
Qed.

Lemma den_wf s p pos v : den s p pos v -> wfv v.
Proof. apply den_wf_all. Qed.

Lemma den_zero s pos v : den s 0 pos v -> v = VNull.
Proof.
  assert (K : p_kind 0 = 0) by reflexivity.
  intros H. inversion H; subst; try reflexivity; try congruence; lia.
Qed.

Lemma den_null_inv s p pos : den s p pos VNull -> p = 0.
Proof.
  intros H. inversion H; subst; [reflexivity|].
  match goal with H : den s _ _ VNull |- _ => inversion H; subst; congruence end.
Qed.

Lemma fdec_q_zero l : blen l = 8 -> fdec Fq l = 0 -> l = zeros 8.
Proof.
  intros Hl H. apply le_dec_inj.
  - change (length (zeros 8)) with 8%nat. unfold blen in Hl. lia.
  - change (le_dec (zeros 8)) with 0.
    pose proof (le_dec_range l) as Hr. rewrite Hl in Hr.
    unfold fdec in H. cbn [fsigned fsize] in H. unfold to_signed in H.
    change (2 ^ (8 * 8 - 1)) with (2 ^ 63) in H. change (2 ^ (8 * 8)) with (2 ^ 64) in H.
    change (256 ^ 8) with (2 ^ 64) in Hr.
    destruct (_ <? _) eqn:?; lia.
Qed.

Lemma den_ptrs_null s pos n vs i :
  den_ptrs s pos n vs -> nth_error vs i = Some VNull ->
  sub (sbuf s) (pos + 8 * Z.of_nat i) 8 = zeros 8.
Proof.
  intros H. revert i. induction H as [|pos n p v vs H1 H2 H3 IH]; intros i Hi.
  - destruct i; discriminate.
  - destruct i as [|i].
    + cbn in Hi. injection Hi as ->. apply den_null_inv in H2. subst p.
      apply word_at_some in H1. destruct H1 as (Ha & Hb & Hc).
      replace (pos + 8 * Z.of_nat 0) with pos by lia.
      apply fdec_q_zero; [unfold slen in Hb; apply blen_sub; lia|]. congruence.
    + cbn in Hi. specialize (IH i Hi).
      replace (pos + 8 * Z.of_nat (S i)) with (pos + 8 + 8 * Z.of_nat i) by lia. exact IH.
Qed.
