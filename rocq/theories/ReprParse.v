(** What shortrepr prints can be read back. *)
From Coq Require Import Strings.String.
From Verif Require Import Base BaseFacts Case CaseFacts Enum Utf8 Loader Repr ReprSpec.
From Coq Require Import Lists.List.
Local Notation length := Datatypes.length.

(** ** Numbers *)
Lemma number_app l c : number (l ++ [c]) = number l * 10 + (c - 48).
Proof. unfold number. rewrite fold_left_app. reflexivity. Qed.

Lemma digits_spec : forall fuel z, 0 <= z < 2 ^ Z.of_nat fuel ->
  number (digits fuel z) = z /\ forallb digit (digits fuel z) = true /\ (fuel <> O -> digits fuel z <> []).
Proof.
  induction fuel as [|fuel IH]; intros z H.
  - cbn in *. assert (z = 0) by lia. subst. repeat split. intros N. now destruct N.
  - cbn [digits]. assert (D : forall l, l ++ [48 + z mod 10] <> []) by (intros [|? ?]; discriminate).
    assert (Dg : digit (48 + z mod 10) = true) by (unfold digit; lia).
    destruct (Z.ltb_spec z 10).
    + cbn [app]. split; [unfold number; cbn [fold_left]; pose proof (Z.mod_small z 10); lia|]. split; [cbn [forallb]; now rewrite Dg|intros _; discriminate].
    + destruct (IH (z / 10)) as (A & B & _).
      { rewrite Nat2Z.inj_succ, Z.pow_succ_r in H by lia. split; [lia|]. apply Z.div_lt_upper_bound; lia. }
      rewrite number_app, A. split; [lia|]. split; [|intros _; apply D]. rewrite forallb_app, B. cbn [forallb andb]. now rewrite Dg.
Qed.

Lemma dec_nat_spec z : 0 <= z -> number (dec_nat z) = z /\ forallb digit (dec_nat z) = true /\ dec_nat z <> [].
Proof.
  intros H. unfold dec_nat. destruct (digits_spec (S (Z.to_nat (Z.log2 z))) z) as (A & B & C).
  - split; [lia|]. rewrite Nat2Z.inj_succ, Z2Nat.id by apply Z.log2_nonneg.
    destruct (Z.eq_dec z 0) as [->|N]; [cbn; lia|]. apply Z.log2_spec. lia.
  - repeat split; [exact A|exact B|apply C; discriminate].
Qed.

Lemma span_all p l rest : forallb p l = true -> match rest with [] => True | c :: _ => p c = false end ->
  span p (l ++ rest) = (l, rest).
Proof.
  intros H R. induction l as [|c l IH]; cbn [app].
  - destruct rest as [|c r]; [reflexivity|]. cbn. now rewrite R.
  - cbn [forallb] in H. apply andb_prop in H. destruct H as (A & B). cbn [span]. rewrite A, (IH B). reflexivity.
Qed.

Definition stop (rest : str) : Prop := match rest with [] => True | c :: _ => c = 44 \/ c = 41 \/ c = 93 end.
Lemma stop_p p rest : p 44 = false -> p 41 = false -> p 93 = false -> stop rest ->
  match rest with [] => True | c :: _ => p c = false end.
Proof. destruct rest as [|c r]; [auto|]. cbn. intros A B C [->|[->| ->]]; assumption. Qed.

Lemma dec_first z : exists c r, dec z = c :: r /\ (c = 45 \/ digit c = true).
Proof.
  unfold dec. destruct (Z.ltb_spec z 0); [eexists _, _; split; [reflexivity|now left]|].
  destruct (dec_nat_spec z) as (_ & B & C); [lia|]. destruct (dec_nat z) as [|c r]; [congruence|].
  exists c, r. split; [reflexivity|]. right. cbn in B. now apply andb_prop in B.
Qed.

Lemma int_lit_dec z rest : stop rest -> int_lit (dec z ++ rest) = Some (z, rest).
Proof.
  intros St. pose proof (stop_p digit rest eq_refl eq_refl eq_refl St) as R. unfold int_lit, dec.
  destruct (Z.ltb_spec z 0).
  - cbn [app Z.eqb Pos.eqb tl]. destruct (dec_nat_spec (- z)) as (A & B & C); [lia|].
    rewrite (span_all _ _ _ B R). destruct (dec_nat (- z)) eqn:E; [congruence|]. rewrite A. do 2 f_equal. lia.
  - destruct (dec_nat_spec z) as (A & B & C); [lia|]. destruct (dec_nat z) as [|c r] eqn:E; [congruence|].
    cbn [app]. assert (N : c =? 45 = false) by (cbn in B; apply andb_prop in B; unfold digit in B; lia).
    rewrite N. change (c :: r ++ rest) with ((c :: r) ++ rest). rewrite (span_all _ _ _ B R), A. reflexivity.
Qed.

(** ** String literals *)
Definition esc_char (c : Z) : str := if c =? 34 then [92; 34] else if c =? 39 then [92; 39] else [c].
Lemma replace_app old new a b : replace old new (a ++ b) = replace old new a ++ replace old new b.
Proof. induction a as [|c a IH]; [reflexivity|]. cbn. now rewrite IH, app_assoc. Qed.
Lemma replace_flat_map {A} old new (f : A -> str) l :
  replace old new (flat_map f l) = flat_map (fun x => replace old new (f x)) l.
Proof. induction l as [|x l IH]; [reflexivity|]. cbn. now rewrite replace_app, IH. Qed.

Lemma text_repr_esc s : text_unicode_repr s = [34] ++ flat_map esc_char s ++ [34].
Proof.
  unfold text_unicode_repr. do 2 f_equal. induction s as [|c s IH]; [reflexivity|].
  cbn [replace flat_map]. rewrite replace_app, IH. f_equal. unfold esc_char.
  destruct (Z.eqb_spec c 34) as [->|N]; [reflexivity|]. cbn. destruct (c =? 39); reflexivity.
Qed.

Lemma lit_body_end fuel rest : (0 < fuel)%nat -> lit_body fuel (34 :: rest) = Some ([], rest).
Proof. destruct fuel; [lia|reflexivity]. Qed.
Lemma lit_body_step fuel c r x r' : c <> 34 -> lit_char (c :: r) = Some (x, r') ->
  lit_body (S fuel) (c :: r) = match lit_body fuel r' with Some (l, q) => Some (x :: l, q) | None => None end.
Proof. intros N H. cbn [lit_body]. apply Z.eqb_neq in N. rewrite N, H. destruct (lit_body fuel r') as [[? ?]|]; reflexivity. Qed.

(** [w]: how one character is written; [v]: the character *)
Lemma lit_body_map {A} (w : A -> str) (v : A -> Z) :
  (forall a rest, exists c r, w a = c :: r /\ c <> 34 /\ lit_char (w a ++ rest) = Some (v a, rest)) ->
  forall l fuel rest, (length l < fuel)%nat ->
  lit_body fuel (flat_map w l ++ 34 :: rest) = Some (map v l, rest).
Proof.
  intros W. induction l as [|a l IH]; intros fuel rest L; cbn [length flat_map map app] in *.
  - apply lit_body_end. lia.
  - destruct fuel as [|fuel]; [lia|]. rewrite <- app_assoc.
    destruct (W a (flat_map w l ++ 34 :: rest)) as (c & r & E & N & H). rewrite E in *. cbn [app] in *.
    rewrite (lit_body_step _ _ _ _ _ N H), IH by lia. reflexivity.
Qed.

Lemma flat_map_length {A} (w : A -> str) l : (forall a, w a <> []) -> (length l <= length (flat_map w l))%nat.
Proof.
  intros W. induction l as [|a l IH]; [auto|]. cbn. rewrite app_length. specialize (W a).
  destruct (w a); [congruence|]. cbn. lia.
Qed.

Lemma literal_map {A} (w : A -> str) (v : A -> Z) :
  (forall a rest, exists c r, w a = c :: r /\ c <> 34 /\ lit_char (w a ++ rest) = Some (v a, rest)) ->
  forall l rest, literal (([34] ++ flat_map w l ++ [34]) ++ rest) = Some (map v l, rest).
Proof.
  intros W l rest. cbn [app literal Z.eqb Pos.eqb]. rewrite <- app_assoc. cbn [app].
  apply (lit_body_map w v W). cbn [length]. rewrite app_length.
  pose proof (flat_map_length w l) as H. destruct l; [cbn; lia|]. specialize (H ltac:(intros b; destruct (W b []) as (? & ? & E & _); rewrite E; discriminate)). lia.
Qed.

Lemma clean_tail c l : clean_text (c :: l) -> clean_text l.
Proof. intros (A & B). split; [intros H; apply A; now right|]. intros i. exact (B (S i)). Qed.

Section raw.
  Variable rest : str.
  (** what follows the opening quote *)
  Definition raw (s : str) : str := flat_map esc_char s ++ 34 :: rest.
  Lemma raw_quote s : raw (34 :: s) = 92 :: 34 :: raw s. Proof. reflexivity. Qed.
  Lemma raw_single s : raw (39 :: s) = 92 :: 39 :: raw s. Proof. reflexivity. Qed.
  Lemma raw_other c s : c <> 34 -> c <> 39 -> raw (c :: s) = c :: raw s.
  Proof. intros A B. unfold raw. cbn [flat_map]. unfold esc_char at 1. replace (c =? 34) with false by lia. replace (c =? 39) with false by lia. reflexivity. Qed.

  Lemma raw_head s h r : raw s = h :: r -> h <> 34 -> h <> 92 -> exists s', s = h :: s' /\ r = raw s'.
  Proof.
    intros E N1 N2. destruct s as [|c s']; [cbn in E; congruence|].
    destruct (Z.eq_dec c 34) as [->|A]; [rewrite raw_quote in E; congruence|].
    destruct (Z.eq_dec c 39) as [->|B]; [rewrite raw_single in E; congruence|].
    rewrite raw_other in E by assumption. exists s'. split; congruence.
  Qed.

  Lemma clean_body : forall n l fuel, (length l <= n)%nat -> clean_text l -> (length l < fuel)%nat ->
    lit_body fuel (raw l) = Some (l, rest).
  Proof.
    induction n as [|n IH]; intros l fuel L C F.
    { destruct l; [|cbn in L; lia]. apply lit_body_end. lia. }
    destruct l as [|c l]; [apply lit_body_end; lia|]. cbn [length] in *. destruct fuel as [|fuel]; [lia|].
    assert (N10 : c <> 10) by (intros ->; apply (proj1 C); now left).
    pose proof (clean_tail _ _ C) as C2.
    destruct (Z.eq_dec c 34) as [->|A]; [rewrite raw_quote; erewrite lit_body_step; [|discriminate|reflexivity]; rewrite IH by (auto || lia); reflexivity|].
    destruct (Z.eq_dec c 39) as [->|B]; [rewrite raw_single; erewrite lit_body_step; [|discriminate|reflexivity]; rewrite IH by (auto || lia); reflexivity|].
    rewrite raw_other by assumption. destruct (Z.eq_dec c 92) as [->|D].
    - pose proof (proj2 C 0%nat eq_refl) as H. cbn in H. destruct l as [|x l]; [discriminate|]. injection H as ->.
      cbn [length] in *. destruct fuel as [|fuel]; [lia|].
      rewrite raw_single. erewrite lit_body_step; [|discriminate|reflexivity].
      erewrite lit_body_step; [|discriminate|reflexivity]. rewrite IH; [reflexivity|lia|exact (clean_tail _ _ C2)|lia].
    - erewrite lit_body_step; [|exact A|cbn [lit_char]; replace ((c =? 34) || (c =? 10)) with false by lia;
        replace (negb (c =? 92)) with true by lia; reflexivity].
      rewrite IH by (auto || lia). reflexivity.
  Qed.

  Ltac crush_char := repeat match goal with
    | H : None = Some _ |- _ => discriminate H
    | H : Some _ = Some _ |- _ => injection H as <- <-
    | H : match ?x with _ => _ end = Some _ |- _ => destruct x eqn:?
    end.

  Lemma lit_char_pre s x r : lit_char s = Some (x, r) -> exists p, s = p ++ r /\ p <> [] /\ ~ In 10 p.
  Proof.
    assert (O : forall c z, octval c = Some z -> c <> 10) by (unfold octval; intros c z; destruct ((48 <=? c) && (c <? 56)) eqn:E; [lia|discriminate]).
    assert (X : forall c z, hexval c = Some z -> c <> 10) by (unfold hexval; intros c z; destruct (Z.eq_dec c 10) as [->|]; [discriminate|auto]).
    assert (Es : forall c z, escape c = Some z -> c <> 10) by (intros c z; destruct (Z.eq_dec c 10) as [->|]; [discriminate|auto]).
    destruct s as [|c s]; [discriminate|]. cbn [lit_char]. intros H.
    destruct ((c =? 34) || (c =? 10)) eqn:Q; [discriminate|]. assert (Nc : c <> 10) by lia.
    destruct (negb (c =? 92)) eqn:Q2; [injection H as <- <-; exists [c]; repeat split; [discriminate|intros [?|[]]; lia]|].
    crush_char; repeat match goal with
      | H : octval _ = Some _ |- _ => apply O in H
      | H : hexval _ = Some _ |- _ => apply X in H
      | H : escape _ = Some _ |- _ => apply Es in H
      end;
    match goal with
    | |- exists p, ?a :: ?b :: ?d :: ?e :: ?r = p ++ ?r /\ _ => exists [a; b; d; e]
    | |- exists p, ?a :: ?b :: ?d :: ?r = p ++ ?r /\ _ => exists [a; b; d]
    | |- exists p, ?a :: ?b :: ?r = p ++ ?r /\ _ => exists [a; b]
    end; (split; [reflexivity|split; [discriminate|]]); cbn [In]; try lia.
  Qed.

  Lemma lit_body_pre : forall fuel s l r, lit_body fuel s = Some (l, r) -> exists p, s = p ++ r /\ p <> [] /\ ~ In 10 p.
  Proof.
    induction fuel as [|fuel IH]; intros s l r H; [discriminate|]. destruct s as [|c s]; [discriminate|].
    cbn [lit_body] in H. destruct (Z.eqb_spec c 34) as [->|N].
    { injection H as <- <-. exists [34]. repeat split; [discriminate|intros [?|[]]; lia]. }
    destruct (lit_char (c :: s)) as [[x q]|] eqn:E; [|discriminate].
    destruct (lit_body fuel q) as [[l' r']|] eqn:E2; [|discriminate]. injection H as <- <-.
    destruct (lit_char_pre _ _ _ E) as (p1 & -> & P1 & Q1). destruct (IH _ _ _ E2) as (p2 & -> & P2 & Q2).
    exists (p1 ++ p2). split; [apply app_assoc|]. split; [destruct p1; [congruence|discriminate]|]. rewrite in_app_iff. tauto.
  Qed.

  Lemma lit_body_not_self fuel l : lit_body fuel rest = Some (l, rest) -> False.
  Proof.
    intros H. destruct (lit_body_pre _ _ _ _ H) as (p & E & N & _).
    apply (f_equal (@length Z)) in E. rewrite app_length in E. destruct p; [congruence|]. cbn in E. lia.
  Qed.
  Lemma raw_not_rest s : raw s = rest -> False.
  Proof. intros E. apply (f_equal (@length Z)) in E. unfold raw in E. rewrite app_length in E. cbn in E. lia. Qed.

  Lemma lit_body_inv fuel c r l q : c <> 34 -> lit_body fuel (c :: r) = Some (l, q) ->
    exists f x r' l', fuel = S f /\ lit_char (c :: r) = Some (x, r') /\ lit_body f r' = Some (l', q) /\ l = x :: l'.
  Proof.
    intros N H. destruct fuel as [|f]; [discriminate|]. cbn [lit_body] in H. apply Z.eqb_neq in N. rewrite N in H.
    destruct (lit_char (c :: r)) as [[x r']|] eqn:E; [|discriminate]. destruct (lit_body f r') as [[l' r'']|] eqn:E2; [|discriminate].
    injection H as <- <-. exists f, x, r', l'. auto.
  Qed.

  Lemma clean_cons c l : c <> 10 -> c <> 92 -> clean_text l -> clean_text (c :: l).
  Proof.
    intros A B (C & D). split; [intros [E|E]; [congruence|auto]|]. intros [|i] H; [cbn in H; congruence|exact (D i H)].
  Qed.

  Lemma body_clean : forall n s fuel l, (length s <= n)%nat -> lit_body fuel (raw s) = Some (l, rest) ->
    (length l <= length s)%nat /\ (l = s -> clean_text s).
  Proof.
    induction n as [|n IH]; intros s fuel l L H.
    { destruct s; [|cbn in L; lia]. destruct fuel; [discriminate|]. cbn in H. injection H as <-. split; [auto|]. intros _. split; [auto|]. intros [|i]; discriminate. }
    destruct s as [|c s]. { apply (IH [] fuel); [cbn; lia|exact H]. }
    cbn [length] in *.
    assert (Ten : ~ In 10 (c :: s)).
    { intros I. destruct (lit_body_pre _ _ _ _ H) as (p & E & _ & Q). apply Q.
      unfold raw in E. change (34 :: rest) with ([34] ++ rest) in E. rewrite app_assoc in E. apply app_inv_tail in E. rewrite <- E.
      apply in_app_iff. left. apply in_flat_map. exists 10. split; [exact I|now left]. }
    destruct (Z.eq_dec c 34) as [->|A].
    { rewrite raw_quote in H. destruct (lit_body_inv _ 92 _ _ _ ltac:(discriminate) H) as (f & x & r' & l' & -> & E & E2 & ->).
      cbn in E. injection E as <- <-. destruct (IH s f l') as (P & Q); [lia|exact E2|]. cbn [length]. split; [lia|].
      intros E. injection E as E. apply clean_cons; [lia|lia|auto]. }
    destruct (Z.eq_dec c 39) as [->|B].
    { rewrite raw_single in H. destruct (lit_body_inv _ 92 _ _ _ ltac:(discriminate) H) as (f & x & r' & l' & -> & E & E2 & ->).
      cbn in E. injection E as <- <-. destruct (IH s f l') as (P & Q); [lia|exact E2|]. cbn [length]. split; [lia|].
      intros E. injection E as E. apply clean_cons; [lia|lia|auto]. }
    rewrite raw_other in H by assumption. destruct (lit_body_inv _ _ _ _ _ A H) as (f & x & r' & l' & -> & E & E2 & ->).
    destruct (Z.eq_dec c 92) as [->|D].
    2: { cbn [lit_char] in E. replace ((c =? 34) || (c =? 10)) with false in E by (cbn [In] in Ten; lia). replace (negb (c =? 92)) with true in E by lia.
      injection E as <- <-. destruct (IH s f l') as (P & Q); [lia|exact E2|]. cbn [length]. split; [lia|].
      intros E. injection E as E. apply clean_cons; [cbn [In] in Ten; lia|lia|auto]. }
    (* a backslash *)
    assert (Short : forall s', (length s' < length s)%nat -> lit_body f (raw s') = Some (l', rest) ->
              (length (x :: l') <= Datatypes.S (length s))%nat /\ (x :: l' = 92 :: s -> clean_text (92 :: s))).
    { intros s' Ls Es. destruct (IH s' f l') as (P & _); [lia|exact Es|]. cbn [length]. split; [lia|].
      intros F. exfalso. apply (f_equal (@length Z)) in F. cbn [length] in F. lia. }
    destruct s as [|e s].
    { cbn in E. injection E as <- <-. exfalso. exact (lit_body_not_self _ _ E2). }
    destruct (Z.eq_dec e 34) as [->|A2].
    { rewrite raw_quote in E. cbn in E. injection E as <- <-. destruct f; [discriminate|]. cbn in E2. injection E2 as _ E2. exfalso. exact (raw_not_rest _ E2). }
    destruct (Z.eq_dec e 39) as [->|B2].
    { rewrite raw_single in E. cbn in E. injection E as <- <-.
      destruct (lit_body_inv _ 39 _ _ _ ltac:(discriminate) E2) as (f2 & x2 & r2 & l2 & -> & E3 & E4 & ->).
      cbn in E3. injection E3 as <- <-. cbn [length] in *. destruct (IH s f2 l2) as (P & Q); [lia|exact E4|]. split; [lia|].
      intros F. injection F as F. specialize (Q F). split; [exact Ten|].
      intros [|i] Hi; [reflexivity|]. exact (proj2 (clean_cons 39 s ltac:(lia) ltac:(lia) Q) i Hi). }
    rewrite raw_other in E by assumption. cbn [lit_char] in E. change ((92 =? 34) || (92 =? 10)) with false in E. change (negb (92 =? 92)) with false in E. cbn iota in E.
    assert (Oct : forall c z, octval c = Some z -> c <> 34 /\ c <> 92) by (unfold octval; intros c z; destruct ((48 <=? c) && (c <? 56)) eqn:Eo; [lia|discriminate]).
    assert (Hex : forall c z, hexval c = Some z -> c <> 34 /\ c <> 92).
    { intros c z. destruct (Z.eq_dec c 34) as [->|]; [discriminate|]. destruct (Z.eq_dec c 92) as [->|]; [discriminate|auto]. }
    destruct (escape e) as [y|] eqn:Ee.
    { injection E as <- <-. apply (Short s); [cbn; lia|exact E2]. }
    destruct (Z.eqb_spec e 120) as [->|N120].
    { destruct (raw s) as [|h q] eqn:Er; [discriminate|]. destruct q as [|h2 q]; [discriminate|].
      destruct (hexval h) eqn:Eh; [|discriminate]. destruct (hexval h2) eqn:Eh2; [|discriminate]. injection E as <- <-.
      destruct (Hex _ _ Eh), (Hex _ _ Eh2).
      destruct (raw_head _ _ _ Er) as (s1 & -> & Er1); try assumption. symmetry in Er1.
      destruct (raw_head _ _ _ Er1) as (s2 & -> & ->); try assumption. apply (Short s2); [cbn; lia|exact E2]. }
    destruct (octval e) as [a|] eqn:Eo; [|discriminate].
    destruct (raw s) as [|h q] eqn:Er.
    { injection E as <- <-. destruct f; discriminate E2. }
    destruct (octval h) as [b|] eqn:Eh.
    2: { injection E as <- <-. apply (Short s); [cbn; lia|]. rewrite Er. exact E2. }
    destruct (Oct _ _ Eh). destruct (raw_head _ _ _ Er) as (s1 & -> & Er1); try assumption. 
    destruct q as [|h2 q].
    { injection E as <- <-. destruct f; discriminate E2. }
    destruct (octval h2) as [b2|] eqn:Eh2.
    2: { injection E as <- <-. apply (Short s1); [cbn; lia|]. rewrite <- Er1. exact E2. }
    injection E as <- <-. destruct (Oct _ _ Eh2). symmetry in Er1.
    destruct (raw_head _ _ _ Er1) as (s2 & -> & ->); try assumption. apply (Short s2); [cbn; lia|exact E2].
  Qed.
End raw.

(** A text is read back iff it is clean *)
Theorem text_literal s rest : literal (text_unicode_repr s ++ rest) = Some (s, rest) <-> clean_text s.
Proof.
  rewrite text_repr_esc.
  change (([34] ++ flat_map esc_char s ++ [34]) ++ rest) with (34 :: (flat_map esc_char s ++ [34]) ++ rest).
  rewrite <- app_assoc. change (flat_map esc_char s ++ [34] ++ rest) with (raw rest s).
  cbn [literal]. change (34 =? 34) with true. cbn iota. split.
  - intros H. exact (proj2 (body_clean rest _ s _ s (Nat.le_refl _) H) eq_refl).
  - intros C. apply (clean_body rest (length s)); [auto|exact C|].
    unfold raw. cbn [length]. rewrite app_length. pose proof (flat_map_length esc_char s) as F.
    specialize (F ltac:(intros a; unfold esc_char; destruct (a =? 34), (a =? 39); discriminate)). lia.
Qed.

(** ** Data *)
Definition data_char (b : byte) : str :=
  let c := bZ b in
  if (c =? 34) || (c =? 39) || (c =? 92) then [92; c]
  else if c =? 9 then [92; 116]
  else if c =? 10 then [92; 110]
  else if c =? 13 then [92; 114]
  else if (c <? 32) || (127 <=? c) then [92; 120; hexdigit (c / 16); hexdigit (c mod 16)]
  else [c].

Lemma flat_map_ext_in {A} (f g : A -> str) l : (forall a, In a l -> f a = g a) -> flat_map f l = flat_map g l.
Proof. induction l as [|a l IH]; intros H; [reflexivity|]. cbn. rewrite (H a) by now left. f_equal. apply IH. intros; apply H; now right. Qed.

Lemma hexdigit_range n : 0 <= n < 16 -> (48 <= hexdigit n < 58) \/ (97 <= hexdigit n < 103).
Proof. unfold hexdigit. intros H. destruct (Z.ltb_spec n 10); lia. Qed.

Lemma data_repr_esc b : data_repr b = [34] ++ flat_map data_char b ++ [34].
Proof.
  unfold data_repr, bytes_repr, bytes_quote.
  destruct (has_byte 39 b && negb (has_byte 34 b)) eqn:Q.
  - apply andb_prop in Q. destruct Q as (_ & Q). apply negb_true_iff in Q.
    cbn [app]. change (34 =? 34) with true. cbn iota. cbn [replace]. change (34 =? 39) with false. cbn [app].
    f_equal. rewrite replace_app, replace_flat_map. f_equal. apply flat_map_ext_in. intros x Hx.
    assert (N : bZ x <> 34).
    { intros E. unfold has_byte in Q. rewrite <- not_true_iff_false in Q. apply Q. apply existsb_exists. exists x. split; [exact Hx|lia]. }
    unfold repr_byte, data_char. pose proof (bZ_range x) as R. set (c := bZ x) in *.
    destruct (Z.eqb_spec c 34); [congruence|]. cbn [orb]. destruct (Z.eqb_spec c 39) as [->|N39]; [reflexivity|]. cbn [orb].
    destruct (Z.eqb_spec c 92) as [->|]; [reflexivity|]. destruct (Z.eqb_spec c 9); [reflexivity|].
    destruct (Z.eqb_spec c 10); [reflexivity|]. destruct (Z.eqb_spec c 13); [reflexivity|].
    destruct ((c <? 32) || (127 <=? c)).
    + pose proof (hexdigit_range (c / 16) ltac:(lia)). pose proof (hexdigit_range (c mod 16) ltac:(lia)).
      cbn [replace]. replace (hexdigit (c / 16) =? 39) with false by lia. replace (hexdigit (c mod 16) =? 39) with false by lia. reflexivity.
    + cbn [replace]. apply Z.eqb_neq in N39. rewrite N39. reflexivity.
  - cbn [app]. change (39 =? 34) with false. cbn iota. f_equal.
    cbn [replace]. change (39 =? 34) with false. cbn [app tl]. rewrite replace_app, replace_flat_map.
    change (replace 34 [92; 34] [39]) with [39]. rewrite removelast_last. f_equal. apply flat_map_ext_in. intros x Hx.
    unfold repr_byte, data_char. pose proof (bZ_range x) as R. set (c := bZ x) in *.
    destruct (Z.eqb_spec c 39) as [->|N39]; [reflexivity|]. cbn [orb].
    destruct (Z.eqb_spec c 92) as [->|]; [reflexivity|]. destruct (Z.eqb_spec c 34) as [->|N34]; [reflexivity|]. cbn [orb].
    destruct (Z.eqb_spec c 9); [reflexivity|].
    destruct (Z.eqb_spec c 10); [reflexivity|]. destruct (Z.eqb_spec c 13); [reflexivity|].
    destruct ((c <? 32) || (127 <=? c)).
    + pose proof (hexdigit_range (c / 16) ltac:(lia)). pose proof (hexdigit_range (c mod 16) ltac:(lia)).
      cbn [replace]. replace (hexdigit (c / 16) =? 34) with false by lia. replace (hexdigit (c mod 16) =? 34) with false by lia. reflexivity.
    + cbn [replace]. apply Z.eqb_neq in N34. rewrite N34. reflexivity.
Qed.

Lemma hexval_digit n : 0 <= n < 16 -> hexval (hexdigit n) = Some n.
Proof.
  intros H. unfold hexdigit, hexval. destruct (Z.ltb_spec n 10).
  - replace ((48 <=? 48 + n) && (48 + n <? 58)) with true by lia. f_equal. lia.
  - replace ((48 <=? 87 + n) && (87 + n <? 58)) with false by lia.
    replace ((97 <=? 87 + n) && (87 + n <? 103)) with true by lia. f_equal. lia.
Qed.

Lemma data_char_lit b rest : exists c r, data_char b = c :: r /\ c <> 34 /\ lit_char (data_char b ++ rest) = Some (bZ b, rest).
Proof.
  unfold data_char. pose proof (bZ_range b) as R. set (c := bZ b) in *. clearbody c.
  destruct (Z.eqb_spec c 34) as [->|N34]; [eexists _, _; split; [reflexivity|split; [discriminate|reflexivity]]|].
  destruct (Z.eqb_spec c 39) as [->|N39]; [eexists _, _; split; [reflexivity|split; [discriminate|reflexivity]]|].
  destruct (Z.eqb_spec c 92) as [->|N92]; [eexists _, _; split; [reflexivity|split; [discriminate|reflexivity]]|]. cbn [orb].
  destruct (Z.eqb_spec c 9) as [->|N9]; [eexists _, _; split; [reflexivity|split; [discriminate|reflexivity]]|].
  destruct (Z.eqb_spec c 10) as [->|N10]; [eexists _, _; split; [reflexivity|split; [discriminate|reflexivity]]|].
  destruct (Z.eqb_spec c 13) as [->|N13]; [eexists _, _; split; [reflexivity|split; [discriminate|reflexivity]]|].
  destruct ((c <? 32) || (127 <=? c)).
  - eexists _, _; split; [reflexivity|split; [discriminate|]].
    cbn [app lit_char Z.eqb Pos.eqb orb negb]. change (escape 120) with (@None Z). cbn iota. change (120 =? 120) with true. cbn iota.
    rewrite !hexval_digit by lia. do 2 f_equal. lia.
  - eexists _, _; split; [reflexivity|split; [exact N34|]]. cbn [app lit_char].
    replace ((c =? 34) || (c =? 10)) with false by lia. replace (negb (c =? 92)) with true by lia. reflexivity.
Qed.

Theorem data_literal b rest : literal (data_repr b ++ rest) = Some (map bZ b, rest).
Proof. rewrite data_repr_esc. apply (literal_map data_char bZ data_char_lit). Qed.


(** ** Sequences *)
Lemma spaces_id c r : is_space c = false -> spaces (c :: r) = c :: r.
Proof. intros H. unfold spaces. cbn [span]. now rewrite H. Qed.
Lemma spaces_32 s : spaces (32 :: s) = spaces s.
Proof. unfold spaces. cbn [span]. change (is_space 32) with true. cbn iota. destruct (span is_space s). reflexivity. Qed.
Lemma expect_here c r : is_space c = false -> expect c (c :: r) = Some r.
Proof. intros H. unfold expect. rewrite spaces_id by exact H. now rewrite Z.eqb_refl. Qed.
Lemma expect_not c x r : is_space x = false -> x <> c -> expect c (x :: r) = None.
Proof. intros H N. unfold expect. rewrite spaces_id by exact H. apply Z.eqb_neq in N. now rewrite N. Qed.

Lemma parse_seq_ok {A} (p : str -> option (A * str)) (w : A -> str) close rest :
  close = 41 \/ close = 93 ->
  forall l fuel pre,
  (forall a, In a l -> forall pre rest', pre = [] \/ pre = [32] -> stop rest' -> p (pre ++ w a ++ rest') = Some (a, rest')) ->
  pre = [] \/ pre = [32] -> l <> [] -> (length l <= fuel)%nat ->
  parse_seq fuel p close (pre ++ join_with comma (map w l) ++ close :: rest) = Some (l, rest).
Proof.
  intros Cl. assert (Sp : is_space close = false) by (destruct Cl as [-> | ->]; reflexivity).
  induction l as [|a l IH]; intros fuel pre W P N L; [congruence|]. cbn [length] in L. destruct fuel as [|fuel]; [lia|].
  cbn [parse_seq]. destruct l as [|b l].
  - cbn [map join_with]. rewrite W; [|now left|exact P|destruct Cl as [-> | ->]; cbn; auto].
    rewrite expect_not; [|exact Sp|destruct Cl; lia]. rewrite expect_here by exact Sp. reflexivity.
  - change (join_with comma (map w (a :: b :: l))) with (w a ++ comma ++ join_with comma (map w (b :: l))).
    rewrite <- !app_assoc. rewrite W; [|now left|exact P|cbn; auto].
    change (comma ++ ?x) with (44 :: [32] ++ x). rewrite expect_here by reflexivity.
    rewrite IH; [reflexivity|intros; apply W; [now right|assumption|assumption]|now right|discriminate|cbn in *; lia].
Qed.

Lemma join_length {A} (w : A -> str) l : (forall a, In a l -> w a <> []) -> (length l <= length (join_with comma (map w l)))%nat.
Proof.
  induction l as [|a l IH]; intros H; [auto|]. assert (w a <> []) by (apply H; now left).
  destruct l as [|b l]; [cbn; destruct (w a); [congruence|cbn; lia]|].
  change (join_with comma (map w (a :: b :: l))) with (w a ++ comma ++ join_with comma (map w (b :: l))).
  rewrite !app_length. specialize (IH ltac:(intros; apply H; now right)). cbn [length] in *. cbn [comma lit]. change (length comma) with 2%nat. lia.
Qed.

Definition head_ok (s : str) : Prop := exists c r, s = c :: r /\ is_space c = false /\ c <> 41 /\ c <> 93.
Lemma parse_list_ok {A} (p : str -> option (A * str)) (w : A -> str) op cl rest l :
  cl = 41 \/ cl = 93 -> is_space op = false ->
  (forall a, In a l -> head_ok (w a)) ->
  (forall a, In a l -> forall pre rest', pre = [] \/ pre = [32] -> stop rest' -> p (pre ++ w a ++ rest') = Some (a, rest')) ->
  parse_list p op cl (([op] ++ join_with comma (map w l) ++ [cl]) ++ rest) = Some (l, rest).
Proof.
  intros Cl Op H W. unfold parse_list. cbn [app]. rewrite <- app_assoc. cbn [app]. rewrite expect_here by exact Op.
  destruct l as [|a l].
  - cbn [map join_with app]. rewrite expect_here; [reflexivity|destruct Cl as [-> | ->]; reflexivity].
  - assert (E : expect cl (join_with comma (map w (a :: l)) ++ cl :: rest) = None).
    { destruct (H a) as (c & r & Ec & S1 & S2 & S3); [now left|].
      destruct l as [|b l].
      - cbn [map join_with]. rewrite Ec. apply expect_not; [exact S1|destruct Cl; lia].
      - change (join_with comma (map w (a :: b :: l))) with (w a ++ comma ++ join_with comma (map w (b :: l))).
        rewrite Ec. apply expect_not; [exact S1|destruct Cl; lia]. }
    rewrite E. apply (parse_seq_ok p w cl rest Cl (a :: l) _ []); [exact W|now left|discriminate|].
    cbn [length]. rewrite app_length. pose proof (join_length w (a :: l)) as J. cbn [length] in J.
    specialize (J ltac:(intros b Hb; destruct (H b Hb) as (? & ? & -> & _); discriminate)). lia.
Qed.

(** ** Everything *)
Lemma ident_char_head c : ident_char c = true -> is_space c = false /\ c <> 41 /\ c <> 93.
Proof. unfold ident_char, is_alnum, is_lower, is_upper, is_digit, underscore, is_space. lia. Qed.
Lemma token_char_head c : token_char c = true -> is_space c = false /\ c <> 41 /\ c <> 93.
Proof. unfold token_char. destruct (is_space c); lia. Qed.
Lemma ident_all n : ident n = true -> forallb ident_char n = true /\ n <> [].
Proof. destruct n as [|c n]; [discriminate|]. cbn [ident]. intros H. apply andb_prop in H. split; [tauto|discriminate]. Qed.

Lemma all_head (p : Z -> bool) s : (forall c, p c = true -> is_space c = false /\ c <> 41 /\ c <> 93) ->
  forallb p s = true -> s <> [] -> head_ok s.
Proof.
  intros P F N. destruct s as [|c r]; [congruence|]. exists c, r. cbn in F. apply andb_prop in F. split; [reflexivity|]. apply P. tauto.
Qed.
Lemma const_head c r : is_space c = false -> c <> 41 -> c <> 93 -> head_ok (c :: r).
Proof. intros. exists c, r. auto. Qed.

Lemma clean_head S t x : clean S t x -> head_ok (print x).
Proof.
  intros []; cbn [print].
  1: now apply const_head.
  1: destruct b; now apply const_head.
  1: { destruct (dec_first z) as (c & r & -> & D). apply const_head; unfold is_space, digit in *; lia. }
  1: now apply (all_head token_char); [apply token_char_head|..].
  1: now apply (all_head token_char); [apply token_char_head|..].
  1: now apply (all_head ident_char); [apply ident_char_head|..].
  1: rewrite text_repr_esc; now apply const_head.
  1: rewrite data_repr_esc; now apply const_head.
  all: now apply const_head.
Qed.

Lemma spaces_pre pre s : pre = [] \/ pre = [32] -> head_ok s -> spaces (pre ++ s) = s.
Proof. intros [-> | ->] (c & r & -> & H & _); cbn [app]; [|rewrite spaces_32]; now apply spaces_id. Qed.
Lemma head_app s rest : head_ok s -> head_ok (s ++ rest).
Proof. intros (c & r & -> & H). exists c, (r ++ rest). auto. Qed.

Lemma span_stop p w rest : p 44 = false -> p 41 = false -> p 93 = false -> forallb p w = true -> stop rest ->
  span p (w ++ rest) = (w, rest).
Proof. intros. apply span_all; [assumption|]. now apply stop_p. Qed.

Lemma uniform {A} (P : nat -> A -> Prop) l :
  (forall x, In x l -> exists k, forall fuel, (k <= fuel)%nat -> P fuel x) ->
  exists k, forall x, In x l -> forall fuel, (k <= fuel)%nat -> P fuel x.
Proof.
  induction l as [|a l IH]; intros H; [exists O; intros x []|].
  destruct (H a) as (k1 & K1); [now left|]. destruct IH as (k2 & K2); [intros; apply H; now right|].
  exists (Nat.max k1 k2). intros x [<-|I] fuel F; [apply K1|apply (K2 x I)]; lia.
Qed.

Lemma map_Zb b : map Zb (map bZ b) = b.
Proof. rewrite map_map. rewrite <- (map_id b) at 2. apply map_ext. apply Zb_bZ. Qed.

Theorem parse_print S t x : clean S t x ->
  exists k, forall fuel, (k <= fuel)%nat -> forall pre rest, pre = [] \/ pre = [32] -> stop rest ->
    parse S fuel t (pre ++ print x ++ rest) = Some (x, rest).
Proof.
  intros C. pose proof (clean_head _ _ _ C) as Hd. revert Hd.
  induction C as [|b|f z|s N F|s N F|c ms caps s I F N|u s T|b|c l Hn Hc IH|t l Hc IH]; intros Hd.
  1-8: exists 1%nat; intros [|fuel] Fu pre rest P St; [lia|]; cbn [parse];
       rewrite (spaces_pre _ _ P (head_app _ _ Hd)); cbn [print].
  - rewrite (span_stop token_char) by (reflexivity || assumption). reflexivity.
  - rewrite (span_stop token_char); [|reflexivity..|destruct b; reflexivity|assumption]. destruct b; reflexivity.
  - rewrite int_lit_dec by assumption. reflexivity.
  - rewrite (span_stop token_char) by (reflexivity || assumption). destruct s; [congruence|reflexivity].
  - rewrite (span_stop token_char) by (reflexivity || assumption). destruct s; [congruence|reflexivity].
  - rewrite (span_stop ident_char) by (reflexivity || assumption).
    replace (existsb (str_eqb s) caps) with true; [reflexivity|]. symmetry. apply existsb_exists. exists s. split; [exact I|]. now apply str_eqb_spec.
  - rewrite (proj2 (text_literal s rest) T). reflexivity.
  - rewrite data_literal, map_Zb. reflexivity.
  - assert (IH' : forall p, In p l -> exists k, forall fuel, (k <= fuel)%nat -> forall f, find_field (rc_fields (S c)) (fst p) = Some f ->
        forall pre rest, pre = [] \/ pre = [32] -> stop rest -> parse S fuel (rfield_type f) (pre ++ print (snd p) ++ rest) = Some (snd p, rest)).
    { intros (n & x) I. destruct (Hn n x I) as (_ & f & Ef). destruct (IH n x f I Ef (clean_head _ _ _ (Hc n x f I Ef))) as (k & K).
      exists k. cbn [fst snd]. intros fuel Fu f' Ef'. assert (f' = f) by congruence. subst f'. now apply K. }
    apply (uniform (fun fuel p => forall f, find_field (rc_fields (S c)) (fst p) = Some f ->
        forall pre rest, pre = [] \/ pre = [32] -> stop rest -> parse S fuel (rfield_type f) (pre ++ print (snd p) ++ rest) = Some (snd p, rest))) in IH'.
    destruct IH' as (k & K). exists (Datatypes.S k). intros [|fuel] Fu pre rest P St; [lia|]. cbn [parse].
    rewrite (spaces_pre _ _ P (head_app _ _ Hd)). cbn [print].
    assert (Hdf : forall a, In a l -> head_ok (fst a ++ lit " = " ++ print (snd a))).
    { intros (n & x) I. destruct (Hn n x I) as (Id & _). destruct (ident_all _ Id). apply head_app. now apply (all_head ident_char); [apply ident_char_head|..]. }
    rewrite (parse_list_ok _ (fun p => fst p ++ lit " = " ++ print (snd p)) 40 41 rest l); [reflexivity|now left|reflexivity|exact Hdf|].
    intros (n & x) I pre' rest' P' St'. cbn [fst snd]. destruct (Hn n x I) as (Id & f & Ef). destruct (ident_all _ Id) as (Ia & In0).
    rewrite (spaces_pre _ _ P'); [|apply head_app; exact (Hdf _ I)]. rewrite <- !app_assoc.
    rewrite (span_all ident_char n _ Ia) by reflexivity. rewrite Ef.
    change (lit " = " ++ print x ++ rest') with ([32; 61; 32] ++ print x ++ rest').
    change (expect 61 ([32; 61; 32] ++ print x ++ rest')) with (Some ([32] ++ print x ++ rest')).
    pose proof (K (n, x) I fuel ltac:(lia) f Ef [32] rest' ltac:(now right) St') as Kx. cbn [fst snd] in Kx. cbn iota. rewrite Kx. reflexivity.
  - assert (IH' : forall x, In x l -> exists k, forall fuel, (k <= fuel)%nat -> forall pre rest, pre = [] \/ pre = [32] -> stop rest -> parse S fuel t (pre ++ print x ++ rest) = Some (x, rest)).
    { intros x I. apply IH; [exact I|]. apply (clean_head S t). now apply Hc. }
    apply (uniform (fun fuel x => forall pre rest, pre = [] \/ pre = [32] -> stop rest -> parse S fuel t (pre ++ print x ++ rest) = Some (x, rest))) in IH'.
    destruct IH' as (k & K). exists (Datatypes.S k). intros [|fuel] Fu pre rest P St; [lia|]. cbn [parse].
    rewrite (spaces_pre _ _ P (head_app _ _ Hd)). cbn [print].
    rewrite (parse_list_ok _ print 91 93 rest l); [reflexivity|now right|reflexivity|intros a I; apply (clean_head S t); now apply Hc|].
    intros a I pre' rest' P' St'. apply (K a I fuel ltac:(lia)); assumption.
Qed.

Corollary print_inj S t x y : clean S t x -> clean S t y -> print x = print y -> x = y.
Proof.
  intros Cx Cy E. destruct (parse_print S t x Cx) as (k1 & K1). destruct (parse_print S t y Cy) as (k2 & K2).
  specialize (K1 (Nat.max k1 k2) ltac:(lia) [] [] ltac:(now left) Logic.I). specialize (K2 (Nat.max k1 k2) ltac:(lia) [] [] ltac:(now left) Logic.I).
  cbn [app] in K1, K2. rewrite E, K2 in K1. congruence.
Qed.
