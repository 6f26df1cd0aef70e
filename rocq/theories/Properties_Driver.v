(** Property theorems C79: the run of the capnp executable, and the files
    that `capnpy compile` writes. [other] decides the versions that are not
    of the form N.N...N or N.N...N-dev, [gen] is the generator and [dll] the
    C compiler (Driver.v). The order of versions is in DriverSpec.v. *)
From Coq Require Import Strings.String.
From Verif Require Import Base BaseFacts Case CaseFacts Options Loader LoaderFacts2 OptDict Driver DriverSpec.
From Coq Require Import Lists.List.
Local Notation length := Datatypes.length.
Local Open Scope list_scope.
Local Open Scope Z_scope.

(** ** Texts *)
Definition isd (c : Z) : bool := (48 <=? c) && (c <=? 57).
Definition no_digit (r : str) : Prop := match r with c :: _ => isd c = false | [] => True end.
Lemma digits_app s r : forallb isd s = true -> no_digit r -> digits (s ++ r) = (s, r).
Proof.
  induction s as [|c s IH]; cbn [app forallb]; intros D N.
  - destruct r as [|c r]; [reflexivity|]. cbn [digits]. unfold no_digit, isd in N. now rewrite N.
  - apply andb_prop in D as (D1 & D2). cbn [digits]. unfold isd in D1. rewrite D1, (IH D2 N). reflexivity.
Qed.
Lemma numeral_ok s n : numeral s n -> s <> [] /\ forallb isd s = true /\ int_of s = n /\ 0 <= n.
Proof.
  induction 1 as [d D|s n d _ (A & B & C & P) D].
  - split; [discriminate|]. split; [unfold forallb, isd; lia|]. split; [unfold int_of, fold_left; lia|lia].
  - split; [now destruct s|]. split; [rewrite forallb_app, B; unfold forallb, isd; lia|]. split; [|lia].
    unfold int_of in *. rewrite fold_left_app, C. unfold fold_left. lia.
Qed.
Lemma release_text_ne l t : release_text l t -> exists c r, t = c :: r /\ isd c = true.
Proof.
  intros R. assert (N : forall s n, numeral s n -> exists c r, s = c :: r /\ isd c = true).
  { intros s n H. apply numeral_ok in H as (A & B & _). destruct s as [|c r]; [congruence|]. exists c, r. split; [reflexivity|].
    cbn [forallb] in B. now apply andb_prop in B as (B & _). }
  destruct R as [s n H|s n l t H _]; destruct (N s n H) as (c & r & -> & D); [eauto|]. cbn [app]. eauto.
Qed.
Definition stops (r : str) : Prop := no_digit r /\ match r with c :: r' => c = dot -> no_digit r' | [] => True end.
Lemma release_ok l t : release_text l t -> forall fuel r, (length t < fuel)%nat -> stops r ->
  release fuel (t ++ r) = Some (l, r) /\ Forall (fun n => 0 <= n) l.
Proof.
  induction 1 as [s n H|s n l t H R IH]; intros [|fuel] r F S; try lia; cbn [release].
  - apply numeral_ok in H as (A & B & C & P). rewrite (digits_app s r B) by apply S. rewrite C.
    split; [|repeat constructor; lia]. destruct s as [|c0 s0]; [congruence|].
    destruct r as [|c r]; [reflexivity|]. destruct S as (S1 & S2). destruct (Z.eqb_spec c dot) as [->|N]; cbn [andb]; [|reflexivity].
    specialize (S2 eq_refl). destruct r as [|c' r]; [reflexivity|]. unfold no_digit, isd in S2. now rewrite S2.
  - apply numeral_ok in H as (A & B & C & P). rewrite <- !app_assoc. rewrite (digits_app s _ B) by reflexivity. rewrite C.
    destruct (release_text_ne _ _ R) as (c & r' & -> & D). rewrite !app_length in F. change (length (lit ".")) with 1%nat in F.
    destruct (IH fuel r) as (E & Q); [cbn [length] in *; lia|exact S|].
    split; [|constructor; [lia|exact Q]]. destruct s as [|c0 s0]; [congruence|].
    change (lit "." ++ (c :: r') ++ r) with (dot :: (c :: r') ++ r). cbv iota. rewrite Z.eqb_refl. cbn [andb app].
    unfold isd in D. rewrite D. change (c :: r' ++ r) with ((c :: r') ++ r). rewrite E. reflexivity.
Qed.

(** ** The order *)
Notation nonneg := (Forall (fun n => 0 <= n)).
Lemma nth_nonneg l i : nonneg l -> 0 <= nth i l 0.
Proof. intros F. revert i. induction F; intros [|i]; cbn; auto; lia. Qed.
Lemma before_nil_r a : nonneg a -> ~ before a [].
Proof. intros N (i & _ & L). pose proof (nth_nonneg a i N). destruct i; cbn in L; lia. Qed.
Lemma before_cons x y a b : before (x :: a) (y :: b) <-> x < y \/ x = y /\ before a b.
Proof.
  split.
  - intros ([|i] & E & L); [left; exact L|right]. split; [exact (E 0%nat ltac:(lia))|]. exists i. split; [|exact L].
    intros j J. exact (E (S j) ltac:(lia)).
  - intros [L|(-> & i & E & L)]; [exists 0%nat; split; [lia|exact L]|]. exists (S i). split; [|exact L].
    intros [|j] J; [reflexivity|]. apply E. lia.
Qed.
Lemma before_pad_l y b : before [] (y :: b) <-> 0 < y \/ 0 = y /\ before [] b.
Proof.
  rewrite <- before_cons. split; intros (i & E & L); exists i.
  - split; [intros j J; rewrite <- (E j J); destruct j as [|[|j]]; reflexivity|destruct i as [|[|i]]; exact L].
  - split; [intros j J; rewrite <- (E j J); destruct j as [|[|j]]; reflexivity|destruct i as [|[|i]]; exact L].
Qed.
Lemma before_pad_r x a : before (x :: a) [] <-> x < 0 \/ x = 0 /\ before a [].
Proof.
  rewrite <- before_cons. split; intros (i & E & L); exists i.
  - split; [intros j J; rewrite (E j J); destruct j as [|[|j]]; reflexivity|destruct i as [|[|i]]; exact L].
  - split; [intros j J; rewrite (E j J); destruct j as [|[|j]]; reflexivity|destruct i as [|[|i]]; exact L].
Qed.
Lemma zeros_before b : nonneg b -> drop_zeros b <> [] <-> before [] b.
Proof.
  induction 1 as [|y b P _ IH]; cbn [drop_zeros].
  - split; [congruence|]. intros B. exfalso. revert B. apply before_nil_r. constructor.
  - rewrite before_pad_l, <- IH. destruct (drop_zeros b); [|split; [intros _|discriminate]; destruct (Z.eq_dec y 0); [right; split; [lia|discriminate]|left; lia]].
    destruct (Z.eqb_spec y 0) as [->|N]; split; intros Q; try discriminate; try congruence.
    + destruct Q as [Q|(_ & Q)]; [lia|congruence].
    + left. lia.
Qed.
Lemma lt_ok a : nonneg a -> forall b, nonneg b -> tuple_lt (drop_zeros a) (drop_zeros b) = true <-> before a b.
Proof.
  induction 1 as [|x a X FA IH]; intros b FB.
  - rewrite <- zeros_before by exact FB. cbn [drop_zeros]. destruct (drop_zeros b); cbn [tuple_lt]; split; congruence.
  - destruct FB as [|y b Y FB].
    + cbn [drop_zeros tuple_lt]. assert (T : forall l, tuple_lt l [] = false) by (destruct l; reflexivity). rewrite T.
      split; [discriminate|]. intros B. exfalso. revert B. apply before_nil_r. now constructor.
    + rewrite before_cons, <- IH by exact FB. cbn [drop_zeros].
      assert (T : forall l, tuple_lt l [] = false) by (destruct l; reflexivity).
      destruct (drop_zeros a) as [|u l]; destruct (drop_zeros b) as [|v m].
      * destruct (Z.eqb_spec x 0), (Z.eqb_spec y 0); cbn [tuple_lt]; rewrite ?Bool.andb_false_r, ?Bool.orb_false_r;
          (split; [intros Q|intros [Q|(_ & Q)]]); try discriminate; try lia; try reflexivity.
      * destruct (Z.eqb_spec x 0); cbn [tuple_lt]; split; try reflexivity; try lia.
      * destruct (Z.eqb_spec y 0); cbn [tuple_lt]; try (rewrite T); try rewrite Bool.andb_false_r; split; try discriminate; try lia.
        all: intros [Q|(_ & Q)]; [lia|discriminate].
      * cbn [tuple_lt]. rewrite Bool.orb_true_iff, Bool.andb_true_iff, Z.ltb_lt, Z.eqb_eq. reflexivity.
Qed.
Lemma nth_tl i (l : list Z) : nth (S i) l 0 = nth i (tl l) 0.
Proof. destruct l; [destruct i|]; reflexivity. Qed.
Lemma order_total a b : before a b \/ same a b \/ before b a.
Proof.
  remember (length a + length b)%nat as n eqn:L. assert (LE : (length a + length b <= n)%nat) by lia. clear L.
  revert a b LE. induction n as [|n IH]; intros a b LE.
  - destruct a, b; cbn in LE; try lia. right. left. intros i. reflexivity.
  - destruct (Z.lt_trichotomy (nth 0 a 0) (nth 0 b 0)) as [Q|[Q|Q]].
    + left. exists 0%nat. split; [lia|exact Q].
    + assert (C : (length (tl a) + length (tl b) <= n)%nat) by (destruct a, b; cbn in *; lia).
      destruct (IH (tl a) (tl b) C) as [(i & E & H)|[S|(i & E & H)]].
      * left. exists (S i). rewrite !nth_tl. split; [|exact H]. intros [|j] J; [exact Q|]. rewrite !nth_tl. apply E. lia.
      * right. left. intros [|i]; [exact Q|]. rewrite !nth_tl. apply S.
      * right. right. exists (S i). rewrite !nth_tl. split; [|exact H]. intros [|j] J; [now rewrite Q|]. rewrite !nth_tl. apply E. lia.
    + right. right. exists 0%nat. split; [lia|exact Q].
Qed.
Lemma before_asym a b : before a b -> ~ before b a /\ ~ same a b.
Proof.
  intros (i & E & L). split.
  - intros (j & E' & L'). destruct (Nat.lt_trichotomy i j) as [Q|[->|Q]]; [specialize (E' i Q); lia|lia|specialize (E j Q); lia].
  - intros S. specialize (S i). lia.
Qed.

(** What the version comparison decides *)
Lemma decides other l dev t : version_text l dev t ->
  exists b, before_050 other t = Some b /\ (b = true <-> older l dev [0; 5; 0]).
Proof.
  intros (s & R & ->). unfold before_050.
  assert (M : nonneg [0; 5; 0]) by (repeat constructor; lia). change [0; 5] with (drop_zeros [0; 5; 0]). destruct dev.
  - destruct (release_ok l s R (S (length (s ++ lit "-dev"))) (lit "-dev")) as (E & N).
    { rewrite app_length. lia. }
    { split; [reflexivity|]. intros D. discriminate D. }
    rewrite E. change (lit "-dev") with [45; 100; 101; 118]. cbv iota. change (dev_suffix [45; 100; 101; 118]) with true. cbv iota.
    eexists. split; [reflexivity|]. rewrite Bool.negb_true_iff, <- Bool.not_true_iff_false, lt_ok by assumption.
    unfold older. split.
    + intros H. destruct (order_total l [0; 5; 0]) as [Q|[Q|Q]]; [now left|right; auto|contradiction].
    + intros [Q|(_ & Q)] H; [exact (proj1 (before_asym _ _ Q) H)|]. apply (proj2 (before_asym _ _ H)). intros i. symmetry. apply Q.
  - destruct (release_ok l s R (S (length (s ++ []))) []) as (E & N); [rewrite app_length; lia|split; exact I|].
    rewrite E. eexists. split; [reflexivity|]. rewrite lt_ok by assumption. unfold older. split; [now left|]. intros [Q|(Q & _)]; [exact Q|discriminate].
Qed.

(** ** The text that capnp prints *)
Lemma blank_white c : blank c = true <-> c = 32 \/ 9 <= c <= 13.
Proof. unfold blank. cbn [existsb]. lia. Qed.
Lemma lstrip_white w s : white w -> match s with c :: _ => blank c = false | [] => True end -> lstrip (w ++ s) = s.
Proof.
  induction 1 as [|c w H _ IH]; intros N; cbn [app].
  - destruct s as [|c s]; [reflexivity|]. cbn [lstrip]. now rewrite N.
  - cbn [lstrip]. rewrite (proj2 (blank_white c) H). auto.
Qed.
Lemma strip_white w1 w2 s : white w1 -> white w2 ->
  match s with c :: _ => blank c = false | [] => True end ->
  match rev s with c :: _ => blank c = false | [] => True end -> s <> [] -> strip (w1 ++ s ++ w2) = s.
Proof.
  intros W1 W2 A B N. unfold strip. rewrite lstrip_white; [|exact W1|destruct s; [congruence|exact A]].
  rewrite rev_app_distr, lstrip_white; [apply rev_involutive| |exact B].
  apply Forall_rev. exact W2.
Qed.
Lemma startswith_app p s : startswith p (p ++ s) = true.
Proof. induction p as [|c p IH]; [reflexivity|]. cbn [app startswith]. now rewrite Z.eqb_refl, IH. Qed.
Lemma after_space_app p s : ~ In 32 s -> after_space (p ++ 32 :: s) = Some s.
Proof.
  intros N. assert (M : after_space s = None).
  { induction s as [|c s IH]; [reflexivity|]. cbn [after_space]. rewrite IH by (intros J; apply N; now right).
    destruct (Z.eqb_spec c 32) as [->|]; [exfalso; apply N; now left|reflexivity]. }
  induction p as [|c p IH]; cbn [app after_space]; [now rewrite M|]. now rewrite IH.
Qed.

(** Characters of a version *)
Lemma version_chars l dev t : version_text l dev t ->
  Forall (fun c => isd c = true \/ In c [45; 46; 100; 101; 118]) t /\ t <> [] /\ exists c r, rev t = c :: r /\ blank c = false.
Proof.
  intros (s & R & ->).
  assert (A : Forall (fun c => isd c = true \/ In c [45; 46; 100; 101; 118]) s).
  { induction R as [s n H|s n l t H _ IH].
    - apply numeral_ok in H as (_ & B & _). apply Forall_forall. intros c J. rewrite forallb_forall in B. left. auto.
    - apply numeral_ok in H as (_ & B & _). apply Forall_app. split.
      + apply Forall_forall. intros c J. rewrite forallb_forall in B. left. auto.
      + apply Forall_app. split; [|exact IH]. constructor; [right; cbn; auto|constructor]. }
  assert (A' : Forall (fun c => isd c = true \/ In c [45; 46; 100; 101; 118]) (s ++ (if dev then lit "-dev" else []))).
  { apply Forall_app. split; [exact A|]. destruct dev; [|constructor].
    change (lit "-dev") with [45; 100; 101; 118]. repeat (constructor; [right; cbn; tauto|]). constructor. }
  split; [exact A'|]. destruct (release_text_ne _ _ R) as (c0 & r0 & Q & _).
  assert (NE : s ++ (if dev then lit "-dev" else []) <> []) by (rewrite Q; discriminate). split; [exact NE|].
  destruct (rev (s ++ (if dev then lit "-dev" else []))) as [|c r] eqn:E.
  { exfalso. apply NE. rewrite <- (rev_involutive (s ++ _)), E. reflexivity. }
  exists c, r. split; [reflexivity|]. apply Forall_rev in A'. rewrite E in A'. inversion A' as [|x y H _]. subst.
  unfold blank, isd in *. cbn [existsb In] in *. lia.
Qed.
Lemma no_unknown t : Forall (fun c => isd c = true \/ In c [45; 46; 100; 101; 118]) t -> contains (lit "unknown") t = false.
Proof.
  change (lit "unknown") with (117 :: [110; 107; 110; 111; 119; 110]).
  induction 1 as [|c t H _ IH]; [reflexivity|]. cbn [contains startswith].
  destruct (Z.eqb_spec 117 c) as [<-|N]; [unfold isd in H; cbn [In] in H; exfalso; lia|]. cbn [andb orb]. exact IH.
Qed.

(** A version that is older than 0.5.0 is refused, the others are accepted
    and are the __capnproto_version__ of the module *)
Theorem C79_version : forall other E w1 w2 l dev t out err, white w1 -> white w2 -> version_text l dev t ->
  map bZ out = w1 ++ lit "Cap'n Proto version " ++ t ++ w2 ->
  e_run E [lit "capnp"; lit "--version"] = (out, err, 0) ->
  (older l dev [0; 5; 0] -> check_capnp other E = Raise LCompiler) /\
  (~ older l dev [0; 5; 0] -> check_capnp other E = Ret t).
Proof.
  intros other E w1 w2 l dev t out err W1 W2 V O X. unfold check_capnp, exec. rewrite X. cbn [negb Z.eqb].
  destruct (version_chars l dev t V) as (CH & NE & (c & r & RE & BL)).
  assert (S : strip (map bZ out) = lit "Cap'n Proto version " ++ t).
  { rewrite O. replace (w1 ++ lit "Cap'n Proto version " ++ t ++ w2) with (w1 ++ (lit "Cap'n Proto version " ++ t) ++ w2)
      by now rewrite <- app_assoc.
    apply strip_white; [exact W1|exact W2|reflexivity| |discriminate]. rewrite rev_app_distr, RE. exact BL. }
  rewrite S. unfold as_identifier.
  assert (AS : Loader.ascii (lit "Cap'n Proto version " ++ t) = true).
  { unfold Loader.ascii. rewrite forallb_app. replace (forallb _ (lit "Cap'n Proto version ")) with true by (vm_compute; reflexivity). cbn [andb].
    apply forallb_forall. intros x J. rewrite Forall_forall in CH. specialize (CH x J). unfold isd in CH. cbn [In] in CH. lia. }
  rewrite AS. change (lit "Cap'n Proto version ") with (lit "Cap'n Proto version" ++ [32]) at 1 2 3 4. rewrite <- app_assoc, startswith_app. cbn [negb app].
  rewrite after_space_app by (intros J; rewrite Forall_forall in CH; specialize (CH _ J); unfold isd in CH; cbn [In] in CH; lia).
  rewrite (no_unknown t CH). destruct (decides other l dev t V) as (b & -> & B). split; intros Q.
  - now rewrite (proj2 B Q).
  - destruct b; [exfalso; apply Q, B; reflexivity|reflexivity].
Qed.
Print Assumptions C79_version.

(** Not decided by the number: a version that capnp does not know is
    accepted, a program that is not capnp is refused *)
Lemma contains_mid a p b : contains p (a ++ p ++ b) = true.
Proof.
  induction a as [|c a IH]; cbn [app]; [|cbn [contains]; now rewrite IH, Bool.orb_true_r].
  destruct (p ++ b) as [|c r] eqn:E; cbn [contains].
  - destruct p; [reflexivity|discriminate].
  - rewrite <- E, startswith_app. reflexivity.
Qed.
Theorem C79_version_unknown : forall other E w1 w2 a b t out err, white w1 -> white w2 ->
  t = a ++ lit "unknown" ++ b -> Forall (fun c => 32 < c < 128) t ->
  map bZ out = w1 ++ lit "Cap'n Proto version " ++ t ++ w2 ->
  e_run E [lit "capnp"; lit "--version"] = (out, err, 0) -> check_capnp other E = Ret t.
Proof.
  intros other E w1 w2 a b t out err W1 W2 T F O X.
  assert (NS : ~ In 32 t) by (intros J; rewrite Forall_forall in F; specialize (F _ J); lia).
  assert (A : Loader.ascii t = true) by (apply forallb_forall; intros c J; rewrite Forall_forall in F; specialize (F _ J); lia).
  assert (U : contains (lit "unknown") t = true) by (rewrite T; apply contains_mid).
  assert (RE : match rev t with c :: _ => blank c = false | [] => False end).
  { destruct (rev t) as [|c r] eqn:RT; [rewrite <- (rev_involutive t), RT in U; discriminate|].
    apply Forall_rev in F. rewrite RT in F. inversion F as [|x y H _]. subst. apply Bool.not_true_is_false. rewrite blank_white. lia. }
  clear T F a b. unfold check_capnp, exec. rewrite X. cbn [negb Z.eqb].
  assert (S : strip (map bZ out) = lit "Cap'n Proto version " ++ t).
  { rewrite O. replace (w1 ++ lit "Cap'n Proto version " ++ t ++ w2) with (w1 ++ (lit "Cap'n Proto version " ++ t) ++ w2)
      by now rewrite <- app_assoc.
    apply strip_white; [exact W1|exact W2|reflexivity| |discriminate]. rewrite rev_app_distr. destruct (rev t); [contradiction|exact RE]. }
  rewrite S. unfold as_identifier. unfold Loader.ascii in *. rewrite forallb_app, A.
  replace (forallb _ (lit "Cap'n Proto version ")) with true by (vm_compute; reflexivity). cbn [andb].
  change (lit "Cap'n Proto version ") with (lit "Cap'n Proto version" ++ [32]). rewrite <- app_assoc, startswith_app. cbn [negb app].
  rewrite after_space_app by exact NS. now rewrite U.
Qed.
Print Assumptions C79_version_unknown.

(** Does [s] begin with [p]? *)
Lemma startswith_inv p : forall s, startswith p s = true -> exists r, s = p ++ r.
Proof.
  induction p as [|c p IH]; intros s H; [now exists s|]. destruct s as [|d s]; [discriminate|]. cbn [startswith] in H.
  apply andb_prop in H as (A & B). apply Z.eqb_eq in A. subst d. destruct (IH s B) as (r & ->). now exists r.
Qed.
Theorem C79_not_capnp : forall other E out err, e_run E [lit "capnp"; lit "--version"] = (out, err, 0) ->
  (forall w r, white w -> map bZ out <> w ++ lit "Cap'n Proto version" ++ r) ->
  exists e, check_capnp other E = Raise e.
Proof.
  intros other E out err X N. unfold check_capnp, exec. rewrite X. cbn [negb Z.eqb]. unfold as_identifier.
  destruct (Loader.ascii _); [|eauto]. destruct (startswith _ _) eqn:S; cbn [negb]; [exfalso|eauto].
  apply startswith_inv in S as (r & S).
  assert (L : forall s, exists w, white w /\ s = w ++ lstrip s).
  { induction s as [|c s (w & W & E1)]; [exists []; split; [constructor|reflexivity]|]. cbn [lstrip]. destruct (blank c) eqn:B.
    - exists (c :: w). split; [constructor; [now apply blank_white|exact W]|]. cbn [app]. now rewrite <- E1.
    - exists []. split; [constructor|reflexivity]. }
  unfold strip in S. destruct (L (map bZ out)) as (w & W & E1). destruct (L (rev (lstrip (map bZ out)))) as (v & V & E2).
  apply (N w (r ++ rev v) W). rewrite E1 at 1. f_equal. rewrite <- (rev_involutive (lstrip (map bZ out))), E2, rev_app_distr, S. now rewrite <- app_assoc.
Qed.
Print Assumptions C79_not_capnp.

(** ** Commands *)
Section run.
  Variables (other : str -> option bool) (gen : generator) (dll : path -> str -> lres (str * str)) (E : env).

  (** What is run: first `capnp --version`; then, if the version is accepted,
      capnp on the file, with the directories of the path that exist, in
      their order. Nothing is run if capnp is not there or if pyx mode is
      asked for and cannot be had. *)
  Theorem C79_commands : forall cwd dirs fs filename p o r fs' t,
    standalone other gen dll E cwd dirs fs filename p o = (r, fs', t) ->
    let version := [lit "capnp"; lit "--version"] in
    let compile := [lit "capnp"; lit "compile"; lit "-o-"] ++
      map (fun d => lit "-I" ++ path_str d) (filter (e_isdir E) (map (local cwd) (dirs ++ [lit "/"]))) ++
      [path_str (local cwd filename)] in
    (t = [] /\ (p = PTrue /\ e_PYX E = false /\ r = Raise LValue \/ e_capnp E = false /\ r = Raise LCompiler)) \/
    (t = [version] /\ exists e, check_capnp other E = Raise e /\ r = Raise e) \/
    (t = [version; compile] /\ exists v, check_capnp other E = Ret v /\
       let '(request, _, status) := e_run E compile in
       (status <> 0 /\ r = Raise LCompiler \/
        status = 0 /\ forall px, getpyx E p = Ret px ->
          match gen request px o v with
          | Raise e => r = Raise e
          | Ret src => px = false /\ r = Ret tt \/
              px = true /\ r = match dll (local cwd filename) src with Raise e => Raise e | Ret _ => Ret tt end
          end)).
  Proof.
    intros cwd dirs fs filename p o r fs' t H version compile. unfold standalone in H.
    destruct (getpyx E p) as [px|e] eqn:G.
    2: { injection H as <- <- <-. left. split; [reflexivity|]. left. unfold getpyx in G. destruct p, (e_PYX E); cbn in G; try discriminate.
         injection G as <-. auto. }
    unfold generate_py_source, capnp_compile in H. destruct (e_capnp E); cbn [negb] in H.
    2: { injection H as <- <- <-. left. split; [reflexivity|]. now right. }
    destruct (check_capnp other E) as [v|e] eqn:C.
    2: { injection H as <- <- <-. right. left. split; [reflexivity|]. eauto. }
    right. right. change (compile_cmd E (search_path cwd dirs) (local cwd filename)) with compile in H.
    unfold exec in H. destruct (e_run E compile) as ((request & err) & status) eqn:R.
    destruct (Z.eqb_spec status 0) as [->|N]; cbn [negb] in H.
    - destruct (gen request px o v) as [src|e] eqn:GE.
      + destruct px.
        * destruct (dll (local cwd filename) src) as [(name & data)|e] eqn:D; injection H as <- <- <-;
            (split; [reflexivity|exists v; split; [reflexivity|right; split; [reflexivity|]]]);
            intros px Q; injection Q as <-; rewrite GE, D; right; auto.
        * injection H as <- <- <-. split; [reflexivity|]. exists v. split; [reflexivity|]. right. split; [reflexivity|].
          intros px Q. injection Q as <-. rewrite GE. left. auto.
      + injection H as <- <- <-. split; [reflexivity|]. exists v. split; [reflexivity|]. right. split; [reflexivity|].
        intros px' Q. injection Q as <-. now rewrite GE.
    - injection H as <- <- <-. split; [reflexivity|]. exists v. split; [reflexivity|]. left. auto.
  Qed.

  (** ** Files *)
  (** If anything fails, no file is changed: an older output stays *)
  Theorem C79_failure : forall cwd dirs fs filename p o e fs' t,
    standalone other gen dll E cwd dirs fs filename p o = (Raise e, fs', t) -> forall q, fs' q = fs q.
  Proof.
    intros cwd dirs fs filename p o e fs' t H q. unfold standalone in H.
    destruct (getpyx E p) as [px|]; [|now injection H as _ <- _].
    destruct (generate_py_source _ _ _ _ _ _ _) as (r & t'). destruct r as [src|]; [|now injection H as _ <- _].
    destruct px; [|discriminate]. destruct (dll _ _) as [(name & data)|]; [discriminate|]. now injection H as _ <- _.
  Qed.

  Lemma before_dot_last s ext : ~ In dot ext -> before_dot (s ++ dot :: ext) = Some s.
  Proof.
    intros N. assert (M : before_dot ext = None).
    { induction ext as [|c ext IH]; [reflexivity|]. cbn [before_dot]. rewrite IH by (intros J; apply N; now right).
      destruct (Z.eqb_spec c dot) as [->|]; [exfalso; apply N; now left|reflexivity]. }
    induction s as [|c s IH]; cbn [app before_dot]; [now rewrite M|]. now rewrite IH.
  Qed.

  (** If all goes well in py mode, dir/name.py is the text of the generator,
      where dir/name.ext is the schema, and no other file is changed *)
  Theorem C79_output : forall cwd dirs fs filename p o fs' t dir name ext,
    standalone other gen dll E cwd dirs fs filename p o = (Ret tt, fs', t) -> getpyx E p = Ret false ->
    local cwd filename = dir ++ [name ++ lit "." ++ ext] -> ~ In dot ext ->
    exists request v src, gen request false o v = Ret src /\ check_capnp other E = Ret v /\
      fst (fst (e_run E (last t []))) = request /\
      fs' (dir ++ [name ++ lit ".py"]) = Some src /\
      forall q, q <> dir ++ [name ++ lit ".py"] -> fs' q = fs q.
  Proof.
    intros cwd dirs fs filename p o fs' t dir name ext H G L N. unfold standalone in H. rewrite G in H.
    unfold generate_py_source, capnp_compile in H. destruct (e_capnp E); cbn [negb] in H; [|discriminate].
    destruct (check_capnp other E) as [v|] eqn:C; [|discriminate].
    unfold exec in H. destruct (e_run E (compile_cmd E (search_path cwd dirs) (local cwd filename))) as ((request & err) & status) eqn:R.
    destruct (negb (status =? 0)); [discriminate|]. destruct (gen request false o v) as [src|] eqn:GE; [|discriminate].
    injection H as <- <-. exists request, v, src. split; [exact GE|]. split; [reflexivity|].
    assert (Q : new_ext (local cwd filename) (lit "py") = dir ++ [name ++ lit ".py"]).
    { unfold new_ext, purebasename. rewrite L, removelast_last, last_last. change (lit "." ++ ext) with (dot :: ext).
      rewrite before_dot_last by exact N. reflexivity. }
    rewrite Q. split; [cbn [last]; now rewrite R|]. unfold write. split.
    - destruct (path_eq_dec _ _); congruence.
    - intros q NQ. destruct (path_eq_dec _ _); congruence.
  Qed.

  (** In pyx mode, only the shared object, next to the schema *)
  Theorem C79_output_pyx : forall cwd dirs fs filename p o fs' t,
    standalone other gen dll E cwd dirs fs filename p o = (Ret tt, fs', t) -> getpyx E p = Ret true ->
    exists src name data, dll (local cwd filename) src = Ret (name, data) /\
      let out := removelast (local cwd filename) ++ [name] in
      fs' out = Some data /\ forall q, q <> out -> fs' q = fs q.
  Proof.
    intros cwd dirs fs filename p o fs' t H G. unfold standalone in H. rewrite G in H.
    destruct (generate_py_source _ _ _ _ _ _ _) as (r & t'). destruct r as [src|]; [|discriminate].
    destruct (dll (local cwd filename) src) as [(name & data)|] eqn:D; [|discriminate]. injection H as <- <-.
    exists src, name, data. split; [exact D|]. unfold write. split.
    - destruct (path_eq_dec _ _); congruence.
    - intros q NQ. destruct (path_eq_dec _ _); congruence.
  Qed.

  (** ** The command line *)
  (** --no-pyx: always py mode; else pyx mode exactly if the extensions are
      there, so that a missing extension is never an error *)
  Theorem C79_cli : forall cwd dirs fs file f,
    (fl_text_type f = lit "bytes" \/ fl_text_type f = lit "unicode") ->
    exists o, parse_argv f = Done (if no_pyx f then PFalse else PAuto, o) /\
      let p := if no_pyx f then PFalse else PAuto in
      cli_compile other gen dll E cwd dirs fs file f =
        (let '(r, fs', t) := standalone other gen dll E cwd dirs fs file p (Some o) in (Done r, fs', t)) /\
      getpyx E p = Ret (negb (no_pyx f) && e_PYX E).
  Proof.
    intros cwd dirs fs file f T.
    assert (P : exists o, parse_argv f = Done (if no_pyx f then PFalse else PAuto, o)).
    { destruct f as [a tx b c d]. cbn [fl_text_type no_pyx] in *. destruct T as [-> | ->]; destruct a, c, d; eexists; vm_compute; reflexivity. }
    destruct P as (o & P). exists o. split; [exact P|]. unfold cli_compile. rewrite P. split; [reflexivity|].
    unfold getpyx. destruct (no_pyx f), (e_PYX E); reflexivity.
  Qed.
End run.
Print Assumptions C79_commands.
Print Assumptions C79_failure.
Print Assumptions C79_output.
Print Assumptions C79_output_pyx.
Print Assumptions C79_cli.

(** A schema in a file called name.py is overwritten by its own output *)
Definition says (version : string) : env :=
  mkenv true (fun c => if path_eq_dec c [lit "capnp"; lit "--version"] then (map Zb (lit version ++ [10]), [], 0) else ([], [], 0))
    (fun p => match p with [_] => true | _ => false end) false.
Theorem C79_input_overwritten_refuted : exists other gen dll E cwd dirs fs filename fs' t,
  standalone other gen dll E cwd dirs fs filename PFalse None = (Ret tt, fs', t) /\
  fs (local cwd filename) = Some (lit "struct Foo {}") /\ fs' (local cwd filename) = Some (lit "class Foo: pass").
Proof.
  exists (fun _ => None), (fun _ _ _ _ => Ret (lit "class Foo: pass")), (fun _ _ => Raise LCompiler), (says "Cap'n Proto version 0.5.3"),
    [lit "tmp"], [], (fun p => Some (lit "struct Foo {}")), (lit "foo.py").
  eexists. eexists. split; [vm_compute; reflexivity|]. split; [reflexivity|]. vm_compute. reflexivity.
Qed.
Print Assumptions C79_input_overwritten_refuted.

(** ** Examples *)
Example C79_ex_numbers : version_text [0; 11; 0] true (lit "0.11.0-dev") /\ older [0; 4; 99] false [0; 5; 0] /\
  older [0; 5] true [0; 5; 0] /\ ~ older [0; 5] false [0; 5; 0] /\ ~ older [0; 10] true [0; 5; 0] /\ ~ older [1] true [0; 5; 0].
Proof.
  split.
  { exists (lit "0.11.0"). split; [|reflexivity]. apply (rt_more (lit "0") 0 [11; 0] (lit "11.0")); [exact (nu_one 0 ltac:(lia))|].
    apply (rt_more (lit "11") 11 [0] (lit "0")); [exact (nu_more (lit "1") 1 1 (nu_one 1 ltac:(lia)) ltac:(lia))|]. apply rt_one. exact (nu_one 0 ltac:(lia)). }
  split; [left; exists 1%nat; split; [intros [|j] J; [reflexivity|lia]|reflexivity]|].
  split; [right; split; [reflexivity|]; intros [|[|[|[|i]]]]; reflexivity|].
  split; [|split]; intros [(i & E & L)|(D & S)]; try discriminate.
  - destruct i as [|[|[|[|i]]]]; cbn in L; lia.
  - destruct i as [|[|i]]; [cbn in L; lia|cbn in L; lia|specialize (E 1%nat ltac:(lia)); discriminate].
  - specialize (S 1%nat). discriminate.
  - destruct i as [|i]; [cbn in L; lia|specialize (E 0%nat ltac:(lia)); discriminate].
  - specialize (S 0%nat). discriminate.
Qed.
Example C79_ex_check other :
  check_capnp other (says "Cap'n Proto version 0.11.0-dev") = Ret (lit "0.11.0-dev") /\
  check_capnp other (says "Cap'n Proto version 0.4.99") = Raise LCompiler /\
  check_capnp other (says "Cap'n Proto version 0.5-dev") = Raise LCompiler /\
  check_capnp other (says "Cap'n Proto version (unknown)") = Ret (lit "(unknown)") /\
  check_capnp other (says "protoc 3.0") = Raise LCompiler.
Proof. repeat split; vm_compute; reflexivity. Qed.
(** two directories, of which one exists, and / *)
Example C79_ex_commands : 
  let '(r, fs, t) := standalone (fun _ => None) (fun _ _ _ v => Ret (lit "version " ++ v)) (fun _ _ => Raise LCompiler)
                       (says "Cap'n Proto version 1.0.1") [lit "tmp"] [lit "/a"; lit "b"] (fun _ => None) (lit "d/x.capnp") PAuto None in
  r = Ret tt /\ fs [lit "tmp"; lit "d"; lit "x.py"] = Some (lit "version 1.0.1") /\ fs [lit "tmp"; lit "d"; lit "x.capnp"] = None /\
  t = [[lit "capnp"; lit "--version"]; [lit "capnp"; lit "compile"; lit "-o-"; lit "-I/a"; lit "/tmp/d/x.capnp"]].
Proof. vm_compute. repeat split. Qed.
