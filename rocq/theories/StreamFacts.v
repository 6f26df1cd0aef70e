(** The buffered readers simulate the ideal stream. *)
From Verif Require Import Base BaseFacts Message Stream.
From Coq Require Import ZifyBool.
Ltac Zify.zify_post_hook ::= Z.div_mod_to_equations.

(** What is left to read *)
Definition bs_left (st : bs) : bytes := skipn (Z.to_nat (bs_i st)) (bs_buf st) ++ concat (bs_src st).
Definition bs_ok (st : bs) : Prop := 0 <= bs_i st /\ Forall (fun c => c <> []) (bs_src st).
Definition sb_left (st : sb_state) : bytes := skipn (Z.to_nat (snd st)) (fst st).

Lemma py_from_nonneg {A} (l : list A) i : 0 <= i -> py_from l i = skipn (Z.to_nat i) l.
Proof.
  intros H. unfold py_from, py_bound. replace (i <? 0) with false by (symmetry; lia).
  destruct (Z.le_gt_cases i (blen l)).
  - rewrite Z.min_l by lia. reflexivity.
  - rewrite Z.min_r by lia. unfold blen in *. rewrite !skipn_all2 by lia. reflexivity.
Qed.

Lemma py_slice_nonneg {A} (l : list A) i j : 0 <= i -> i <= j ->
  py_slice l i j = firstn (Z.to_nat (j - i)) (skipn (Z.to_nat i) l).
Proof.
  intros Hi Hj. unfold py_slice, py_bound, sub.
  replace (i <? 0) with false by (symmetry; lia). replace (j <? 0) with false by (symmetry; lia).
  unfold blen. destruct (Z.le_gt_cases i (Z.of_nat (length l))).
  - rewrite (Z.min_l i) by lia.
    destruct (Z.le_gt_cases j (Z.of_nat (length l))).
    + rewrite Z.min_l by lia. reflexivity.
    + rewrite Z.min_r by lia. rewrite !firstn_all2; try reflexivity; rewrite skipn_length; lia.
  - rewrite !Z.min_r by lia. rewrite !(skipn_all2 l) by lia. rewrite !firstn_nil. reflexivity.
Qed.

Lemma skipn_skipn {A} (l : list A) : forall y x, skipn x (skipn y l) = skipn (x + y) l.
Proof.
  induction l as [|a l IH]; intros y x; [rewrite !skipn_nil; reflexivity|].
  destruct y as [|y]; [rewrite Nat.add_0_r; reflexivity|].
  rewrite Nat.add_succ_r. cbn [skipn]. apply IH.
Qed.

Lemma firstn_app_le {A} (a b : list A) n : (n <= length a)%nat -> firstn n (a ++ b) = firstn n a.
Proof. intros H. rewrite firstn_app. replace (n - length a)%nat with O by lia. apply app_nil_r. Qed.
Lemma skipn_app_le {A} (a b : list A) n : (n <= length a)%nat -> skipn n (a ++ b) = skipn n a ++ b.
Proof. intros H. rewrite skipn_app. replace (n - length a)%nat with O by lia. reflexivity. Qed.

Lemma bs_fill_loop_spec : forall src total size,
  Forall (fun c => c <> []) src ->
  let '(ps, rest) := bs_fill_loop total size src in
  ps ++ concat rest = concat src /\ Forall (fun c => c <> []) rest /\
  (size <= total + blen ps \/ rest = []).
Proof.
  induction src as [|c src IH]; intros total size F; cbn [bs_fill_loop].
  - destruct (total <? size) eqn:E; repeat split; auto.
  - inversion F as [|? ? Hc F']; subst.
    destruct (total <? size) eqn:E.
    + destruct c as [|b c]; [congruence|].
      specialize (IH (total + blen (b :: c)) size F').
      destruct (bs_fill_loop (total + blen (b :: c)) size src) as [ps rest].
      destruct IH as (A & B & C). cbn [concat]. rewrite <- app_assoc, A.
      split; [reflexivity|]. split; [exact B|]. rewrite blen_app.
      destruct C as [C|C]; [left; rewrite Z.add_assoc; exact C|right; exact C].
    + cbn [concat app]. split; [reflexivity|]. split; [exact F|]. left.
      change (size <= total + 0). lia.
Qed.

Lemma bs_read_spec st n :
  bs_ok st -> 0 <= n ->
  fst (bs_read n st) = firstn (Z.to_nat n) (bs_left st) /\
  bs_left (snd (bs_read n st)) = skipn (Z.to_nat n) (bs_left st) /\
  bs_ok (snd (bs_read n st)).
Proof.
  intros [Hi F] Hn. unfold bs_read, bs_left.
  destruct (blen (bs_buf st) <? bs_i st + n) eqn:E.
  - unfold bs_fillbuf. rewrite py_from_nonneg by exact Hi.
    set (part0 := skipn (Z.to_nat (bs_i st)) (bs_buf st)).
    pose proof (bs_fill_loop_spec (bs_src st) (blen part0) n F) as S.
    destruct (bs_fill_loop (blen part0) n (bs_src st)) as [ps rest].
    destruct S as (A & B & C). cbn [fst snd bs_buf bs_i bs_src].
    rewrite py_slice_nonneg by lia. rewrite Z.sub_0_r. cbn [Z.to_nat skipn].
    rewrite <- A, app_assoc.
    assert (C' : (Z.to_nat n <= length (part0 ++ ps))%nat \/ rest = []).
    { destruct C as [C|C]; [left|right; exact C]. rewrite app_length. unfold blen in C. lia. }
    destruct C' as [C'|C'].
    + rewrite (firstn_app_le (part0 ++ ps)), (skipn_app_le (part0 ++ ps)) by exact C'. repeat split; auto.
    + subst rest. cbn [concat]. rewrite !app_nil_r. repeat split; auto.
  - cbn [fst snd bs_buf bs_i bs_src]. rewrite py_slice_nonneg by lia.
    replace (bs_i st + n - bs_i st) with n by lia.
    assert (L : (Z.to_nat n <= length (skipn (Z.to_nat (bs_i st)) (bs_buf st)))%nat).
    { rewrite skipn_length. unfold blen in E. lia. }
    rewrite firstn_app_le, skipn_app_le by exact L.
    split; [reflexivity|]. split; [|split; [cbn [bs_i]; lia|exact F]].
    f_equal. rewrite skipn_skipn. f_equal. lia.
Qed.

Lemma bs_readall_loop_spec src :
  Forall (fun c => c <> []) src -> bs_readall_loop src = (concat src, []).
Proof.
  induction src as [|c src IH]; intros F; cbn [bs_readall_loop concat]; [reflexivity|].
  inversion F as [|? ? Hc F']; subst. destruct c as [|b c]; [congruence|].
  rewrite IH by exact F'. reflexivity.
Qed.

Lemma bs_readall_spec st :
  bs_ok st ->
  fst (bs_readall st) = bs_left st /\ bs_left (snd (bs_readall st)) = [] /\
  bs_ok (snd (bs_readall st)).
Proof.
  intros [Hi F]. unfold bs_readall, bs_left. rewrite bs_readall_loop_spec by exact F.
  cbn [fst snd bs_buf bs_i bs_src]. rewrite py_from_nonneg by exact Hi.
  split; [reflexivity|]. split; [reflexivity|]. split; [cbn; lia|constructor].
Qed.

Lemma ideal_readline_app a b :
  ideal_readline (a ++ b) =
  match find_nl a with
  | Some k => (firstn (S k) a, skipn (S k) a ++ b)
  | None => let (l, r) := ideal_readline b in (a ++ l, r)
  end.
Proof.
  induction a as [|x a IH]; cbn [app find_nl].
  - destruct (ideal_readline b); reflexivity.
  - cbn [ideal_readline]. destruct (Byte.eqb x newline) eqn:E.
    + reflexivity.
    + rewrite IH. destruct (find_nl a) as [k|]; cbn [option_map].
      * reflexivity.
      * destruct (ideal_readline b); reflexivity.
Qed.

Lemma bs_readline_loop_spec src :
  Forall (fun c => c <> []) src ->
  let '(ps, buf, rest) := bs_readline_loop src in
  ideal_readline (concat src) = (ps, buf ++ concat rest) /\ Forall (fun c => c <> []) rest.
Proof.
  induction src as [|c src IH]; intros F; cbn [bs_readline_loop concat].
  - split; [reflexivity|constructor].
  - inversion F as [|? ? Hc F']; subst. destruct c as [|b c]; [congruence|].
    set (part := b :: c) in *. rewrite ideal_readline_app.
    unfold py_find_nl. cbn [Z.to_nat skipn].
    destruct (find_nl part) as [k|] eqn:E.
    + replace (negb (0 + Z.of_nat k =? -1)) with true by (symmetry; lia).
      rewrite py_slice_nonneg, py_from_nonneg by lia.
      replace (Z.to_nat (0 + Z.of_nat k + 1 - 0)) with (S k) by lia.
      replace (Z.to_nat (0 + Z.of_nat k + 1)) with (S k) by lia.
      cbn [Z.to_nat]. split; [reflexivity|exact F'].
    + cbn [Z.eqb negb Pos.eqb]. specialize (IH F').
      destruct (bs_readline_loop src) as [[ps buf] rest]. destruct IH as [A B].
      rewrite A. split; [reflexivity|exact B].
Qed.

Lemma bs_readline_spec st :
  bs_ok st ->
  fst (bs_readline st) = fst (ideal_readline (bs_left st)) /\
  bs_left (snd (bs_readline st)) = snd (ideal_readline (bs_left st)) /\
  bs_ok (snd (bs_readline st)).
Proof.
  intros [Hi F]. unfold bs_readline, bs_left. rewrite ideal_readline_app. unfold py_find_nl.
  destruct (find_nl (skipn (Z.to_nat (bs_i st)) (bs_buf st))) as [k|].
  - replace (negb (bs_i st + Z.of_nat k =? -1)) with true by (symmetry; lia).
    cbn [fst snd bs_buf bs_i bs_src]. rewrite py_slice_nonneg by lia.
    replace (Z.to_nat (bs_i st + Z.of_nat k + 1 - bs_i st)) with (S k) by lia.
    split; [reflexivity|]. split; [|split; [cbn [bs_i]; lia|exact F]].
    f_equal. rewrite skipn_skipn. f_equal. lia.
  - cbn [Z.eqb negb Pos.eqb].
    pose proof (bs_readline_loop_spec (bs_src st) F) as S.
    destruct (bs_readline_loop (bs_src st)) as [[ps buf] rest]. destruct S as [A B].
    rewrite A. cbn [fst snd bs_buf bs_i bs_src]. rewrite py_from_nonneg by exact Hi.
    split; [reflexivity|]. split; [reflexivity|]. split; [cbn; lia|exact B].
Qed.

(** StringBuffer *)
Definition sb_ok (st : sb_state) : Prop := 0 <= snd st.

Lemma sb_read_spec st n :
  sb_ok st -> 0 <= n ->
  fst (sb_read n st) = firstn (Z.to_nat n) (sb_left st) /\
  sb_left (snd (sb_read n st)) = skipn (Z.to_nat n) (sb_left st) /\
  sb_ok (snd (sb_read n st)).
Proof.
  destruct st as [s i]. unfold sb_ok, sb_left, sb_read. cbn [fst snd]. intros Hi Hn.
  rewrite py_slice_nonneg by lia. replace (i + n - i) with n by lia.
  split; [reflexivity|]. split; [|lia]. rewrite skipn_skipn. f_equal. lia.
Qed.

Lemma sb_readall_spec st :
  sb_ok st ->
  fst (sb_readall st) = sb_left st /\ sb_left (snd (sb_readall st)) = [] /\ sb_ok (snd (sb_readall st)).
Proof.
  destruct st as [s i]. unfold sb_ok, sb_left, sb_readall. cbn [fst snd]. intros Hi.
  rewrite py_from_nonneg by lia. split; [reflexivity|].
  split; [apply skipn_all2; unfold blen; lia|apply blen_nonneg].
Qed.

Lemma sb_readline_spec st :
  sb_ok st ->
  fst (sb_readline st) = fst (ideal_readline (sb_left st)) /\
  sb_left (snd (sb_readline st)) = snd (ideal_readline (sb_left st)) /\
  sb_ok (snd (sb_readline st)).
Proof.
  destruct st as [s i]. unfold sb_ok, sb_left, sb_readline. cbn [fst snd]. intros Hi.
  pose proof (ideal_readline_app (skipn (Z.to_nat i) s) []) as A. rewrite app_nil_r in A. rewrite A.
  unfold py_find_nl. destruct (find_nl (skipn (Z.to_nat i) s)) as [k|].
  - replace (i + Z.of_nat k + 1 =? 0) with false by (symmetry; lia). cbn [fst snd].
    rewrite py_slice_nonneg by lia.
    replace (Z.to_nat (i + Z.of_nat k + 1 - i)) with (S k) by lia.
    split; [reflexivity|]. split; [|lia]. rewrite app_nil_r, skipn_skipn. f_equal. lia.
  - cbn [Z.eqb Z.add Pos.add Z.pos_sub fst snd ideal_readline]. rewrite py_from_nonneg by lia. rewrite app_nil_r.
    split; [reflexivity|]. split; [apply skipn_all2; unfold blen; lia|apply blen_nonneg].
Qed.

(** Sequences of calls *)
Definition op_ok (o : rop) : Prop := match o with RRead n => 0 <= n | _ => True end.

Lemma bs_run ops : Forall op_ok ops -> forall st, bs_ok st ->
  run_ops bs_read bs_readall bs_readline ops st =
  run_ops ideal_read ideal_readall ideal_readline ops (bs_left st).
Proof.
  induction ops as [|o ops IH]; intros F st S; [reflexivity|].
  inversion F as [|? ? Ho F']; subst. cbn [run_ops].
  assert (X : fst (run_op bs_read bs_readall bs_readline o st)
              = fst (run_op ideal_read ideal_readall ideal_readline o (bs_left st)) /\
            bs_left (snd (run_op bs_read bs_readall bs_readline o st))
              = snd (run_op ideal_read ideal_readall ideal_readline o (bs_left st)) /\
            bs_ok (snd (run_op bs_read bs_readall bs_readline o st))).
  { destruct o; cbn [run_op op_ok] in *.
    - apply bs_read_spec; assumption.
    - apply bs_readall_spec; assumption.
    - apply bs_readline_spec; assumption. }
  destruct (run_op bs_read bs_readall bs_readline o st) as [out st'].
  destruct (run_op ideal_read ideal_readall ideal_readline o (bs_left st)) as [out' r'].
  cbn [fst snd] in X. destruct X as (X1 & X2 & X3). subst. f_equal. apply IH; assumption.
Qed.

Lemma sb_run ops : Forall op_ok ops -> forall st, sb_ok st ->
  run_ops sb_read sb_readall sb_readline ops st =
  run_ops ideal_read ideal_readall ideal_readline ops (sb_left st).
Proof.
  induction ops as [|o ops IH]; intros F st S; [reflexivity|].
  inversion F as [|? ? Ho F']; subst. cbn [run_ops].
  assert (X : fst (run_op sb_read sb_readall sb_readline o st)
              = fst (run_op ideal_read ideal_readall ideal_readline o (sb_left st)) /\
            sb_left (snd (run_op sb_read sb_readall sb_readline o st))
              = snd (run_op ideal_read ideal_readall ideal_readline o (sb_left st)) /\
            sb_ok (snd (run_op sb_read sb_readall sb_readline o st))).
  { destruct o; cbn [run_op op_ok] in *.
    - apply sb_read_spec; assumption.
    - apply sb_readall_spec; assumption.
    - apply sb_readline_spec; assumption. }
  destruct (run_op sb_read sb_readall sb_readline o st) as [out st'].
  destruct (run_op ideal_read ideal_readall ideal_readline o (sb_left st)) as [out' r'].
  cbn [fst snd] in X. destruct X as (X1 & X2 & X3). subst. f_equal. apply IH; assumption.
Qed.

Lemma bs_run_init chunks ops :
  Forall (fun c => c <> []) chunks -> Forall op_ok ops ->
  run_ops bs_read bs_readall bs_readline ops (bs_init chunks) =
  run_ops ideal_read ideal_readall ideal_readline ops (concat chunks).
Proof.
  intros F O. rewrite bs_run; [reflexivity|exact O|]. split; [cbn; lia|exact F].
Qed.

(** ** The writing side *)

(** everything written *)
Fixpoint written (ops : list wop) : bytes :=
  match ops with
  | [] => []
  | WWrite d :: r => d ++ written r
  | WFlush :: r => written r
  end.

(** everything written before the last flush *)
Fixpoint flushed (ops : list wop) : bytes :=
  match ops with
  | [] => []
  | o :: r =>
      match o with
      | WWrite d => if existsb (fun o => match o with WFlush => true | _ => false end) r
                    then d ++ flushed r else []
      | WFlush => flushed r
      end
  end.

Lemma w_run_spec ops : forall st,
  w_sent (w_run ops st) =
    w_sent st ++
    (if existsb (fun o => match o with WFlush => true | _ => false end) ops
     then concat (w_buf st) ++ flushed ops else []) /\
  w_sent (w_run ops st) ++ concat (w_buf (w_run ops st)) = w_sent st ++ concat (w_buf st) ++ written ops.
Proof.
  induction ops as [|o ops IH]; intros st; cbn [w_run fold_left existsb written flushed].
  - rewrite !app_nil_r. auto.
  - change (fold_left (fun st0 o0 => w_step o0 st0) ops (w_step o st)) with (w_run ops (w_step o st)).
    destruct (IH (w_step o st)) as [A B]. rewrite B, A. clear IH A B.
    destruct o as [d|]; cbn [w_step w_buf w_sent].
    + cbn [orb]. rewrite concat_app. cbn [concat]. rewrite app_nil_r.
      destruct (existsb _ ops); rewrite <- !app_assoc; auto.
    + cbn [orb concat app]. rewrite <- !app_assoc. split; [|reflexivity].
      destruct (existsb _ ops) eqn:E; [reflexivity|].
      assert (N : flushed ops = []).
      { clear -E. destruct ops as [|[d|] r]; cbn in *; [reflexivity| |discriminate].
        cbn [existsb] in E. rewrite E. reflexivity. }
      rewrite N, app_nil_r. reflexivity.
Qed.
