(** Writing expressions so that they can be read (PyExpr.v). *)
From Coq Require Import Strings.String.
From Verif Require Import Base BaseFacts Spec Case CaseFacts Loader Repr ReprSpec ReprParse PyExpr.
From Coq Require Import Lists.List.
Local Notation length := Datatypes.length.

Fixpoint show (e : expr) : str :=
  match e with
  | ENum z => dec_nat z
  | EFloat s => s
  | EBytes b => 98 :: bytes_repr b
  | EName n => n
  | EAttr e n => show e ++ [46] ++ n
  | ECall e args => show e ++ [40] ++ join_with comma (map show args) ++ [41]
  | ETuple l => [40] ++ join_with comma (map show l) ++ (match l with [_] => [44] | _ => [] end) ++ [41]
  | ENeg e => 45 :: show e
  end.

Definition callable (e : expr) : bool := match e with EName _ | EAttr _ _ | ECall _ _ => true | _ => false end.
(** texts that are a floating point literal as a whole *)
Definition float_text (s : str) : Prop :=
  match s with c :: _ => digit c = true | [] => False end /\ number_literal s = Some (EFloat s, []).

Inductive wf : expr -> Prop :=
| wf_num : forall z, 0 <= z -> wf (ENum z)
| wf_float : forall s, float_text s -> wf (EFloat s)
| wf_bytes : forall b, wf (EBytes b)
| wf_name : forall n, ident n = true -> wf (EName n)
| wf_attr : forall e n, wf e -> callable e = true -> ident n = true -> wf (EAttr e n)
| wf_call : forall e l, wf e -> callable e = true -> (forall x, In x l -> wf x) -> wf (ECall e l)
| wf_tuple : forall l, (forall x, In x l -> wf x) -> wf (ETuple l)
| wf_neg : forall e, wf e -> wf (ENeg e).

Lemma expr_all_ind (P : expr -> Prop) :
  (forall z, P (ENum z)) -> (forall s, P (EFloat s)) -> (forall b, P (EBytes b)) -> (forall n, P (EName n)) ->
  (forall e n, P e -> P (EAttr e n)) ->
  (forall e l, P e -> (forall x, In x l -> P x) -> P (ECall e l)) ->
  (forall l, (forall x, In x l -> P x) -> P (ETuple l)) ->
  (forall e, P e -> P (ENeg e)) -> forall e, P e.
Proof.
  intros H1 H2 H3 H4 H5 H6 H7 H8. fix F 1. intros [z|s|b|n|e n|e l|l|e]; [apply H1|apply H2|apply H3|apply H4|apply H5, F| | |apply H8, F].
  - apply H6; [apply F|]. induction l as [|a l IH]; intros x Hx; [destruct Hx|].
    destruct Hx as [<-|Hx]; [apply F|apply IH; exact Hx].
  - apply H7. induction l as [|a l IH]; intros x Hx; [destruct Hx|].
    destruct Hx as [<-|Hx]; [apply F|apply IH; exact Hx].
Qed.

(** ** Numbers *)
Lemma digits_head : forall fuel z, 0 <= z < 2 ^ Z.of_nat fuel ->
  exists c r, digits fuel z = c :: r /\ digit c = true /\ (c = 48 -> r = []) \/ (fuel = O).
Proof.
  induction fuel as [|fuel IH]; intros z H; [exists 0, []; now right|].
  cbn [digits]. rewrite Nat2Z.inj_succ, Z.pow_succ_r in H by lia.
  destruct (Z.ltb_spec z 10) as [L|L].
  - exists (48 + z mod 10), []. left. cbn [app]. split; [reflexivity|]. split; [unfold digit; lia|auto].
  - destruct (IH (z / 10) ltac:(lia)) as (c & r & [(E & D & Z0)|E]).
    + exists c, (r ++ [48 + z mod 10]). left. rewrite E. cbn [app]. split; [reflexivity|]. split; [exact D|].
      intros C. specialize (Z0 C). subst r c. exfalso.
      destruct (digits_spec fuel (z / 10) ltac:(lia)) as (N & _).
      * rewrite E in N. cbn in N. lia.
    + subst fuel. cbn in H. lia.
Qed.

Lemma dec_nat_head z : 0 <= z -> exists c r, dec_nat z = c :: r /\ digit c = true /\ (c = 48 -> r = []).
Proof.
  intros H. unfold dec_nat. destruct (digits_head (S (Z.to_nat (Z.log2 z))) z) as (c & r & [P|E]); [|exists c, r; exact P|discriminate].
  split; [lia|]. rewrite Nat2Z.inj_succ, Z2Nat.id by apply Z.log2_nonneg.
  destruct (Z.eq_dec z 0) as [->|N]; [cbn; lia|]. apply Z.log2_spec. lia.
Qed.

(** what follows an expression *)
Definition ends (rest : str) : Prop := match rest with [] => True | c :: _ => c = 44 \/ c = 41 end.
Definition follows (e : expr) (rest : str) : Prop :=
  match rest with [] => True | c :: _ => c = 44 \/ c = 41 \/ (callable e = true /\ (c = 46 \/ c = 40)) end.

Lemma number_dec z rest : 0 <= z -> ends rest -> number_literal (dec_nat z ++ rest) = Some (ENum z, rest).
Proof.
  intros H R. destruct (dec_nat_spec z H) as (A & B & _). destruct (dec_nat_head z H) as (c & r & E & D & Z0).
  unfold number_literal. rewrite span_all; [|exact B|destruct rest as [|x rest]; [exact Logic.I|destruct R as [-> | ->]; reflexivity]].
  rewrite E. assert (F : fraction rest = ([], rest)).
  { destruct rest as [|x rest]; [reflexivity|]. destruct R as [-> | ->]; reflexivity. }
  assert (G : exponent rest = ([], rest)).
  { destruct rest as [|x rest]; [reflexivity|]. destruct R as [-> | ->]; reflexivity. }
  rewrite F, G. replace ((c =? 48) && negb (str_eqb r [])) with false; [rewrite <- E, A; reflexivity|].
  destruct (Z.eqb_spec c 48) as [C|C]; [|reflexivity]. rewrite (Z0 C). reflexivity.
Qed.

Lemma span_app p s rest : match rest with [] => True | c :: _ => p c = false end ->
  span p (s ++ rest) = let (a, b) := span p s in (a, b ++ rest).
Proof.
  intros R. induction s as [|c s IH]; [cbn [app]; destruct rest as [|x rest]; [reflexivity|cbn [span]; rewrite R; reflexivity]|].
  cbn [app span]. destruct (p c); [|reflexivity]. rewrite IH. destruct (span p s). reflexivity.
Qed.
Lemma span_split p s : s = fst (span p s) ++ snd (span p s).
Proof. induction s as [|c s IH]; [reflexivity|]. cbn [span]. destruct (p c); [|reflexivity]. destruct (span p s). cbn in *. now rewrite IH at 1. Qed.
Lemma ends_digit rest : ends rest -> match rest with [] => True | c :: _ => digit c = false end.
Proof. destruct rest as [|c rest]; [auto|]. intros [-> | ->]; reflexivity. Qed.

Lemma fraction_app s rest : ends rest -> fraction (s ++ rest) = let (a, b) := fraction s in (a, b ++ rest).
Proof.
  intros R. destruct s as [|c s].
  - cbn [app fraction]. destruct rest as [|x rest]; [reflexivity|]. destruct R as [-> | ->]; reflexivity.
  - cbn [app fraction]. destruct (c =? 46); [|reflexivity]. rewrite span_app by (apply ends_digit; exact R).
    destruct (span digit s). reflexivity.
Qed.
Lemma exponent_app s rest : ends rest -> exponent (s ++ rest) = let (a, b) := exponent s in (a, b ++ rest).
Proof.
  intros R. destruct s as [|c s].
  - cbn [app exponent]. destruct rest as [|x rest]; [reflexivity|]. destruct R as [-> | ->]; reflexivity.
  - cbn [app exponent]. destruct (c =? 101); [|reflexivity].
    destruct s as [|x s].
    + cbn [app]. destruct rest as [|y rest]; [reflexivity|]. destruct R as [-> | ->]; cbn; reflexivity.
    + cbn [app]. destruct ((x =? 43) || (x =? 45)).
      * rewrite span_app by (apply ends_digit; exact R). destruct (span digit s) as [[|d ds] r]; reflexivity.
      * change (x :: s ++ rest) with ((x :: s) ++ rest). rewrite span_app by (apply ends_digit; exact R).
        destruct (span digit (x :: s)) as [[|d ds] r]; reflexivity.
Qed.
Lemma number_app_rest s e rest : number_literal s = Some (e, []) -> ends rest -> number_literal (s ++ rest) = Some (e, rest).
Proof.
  unfold number_literal. intros H R. rewrite span_app by (apply ends_digit; exact R). destruct (span digit s) as [a r].
  destruct a as [|c a]; [discriminate|]. rewrite fraction_app by exact R. destruct (fraction r) as [f r'].
  rewrite exponent_app by exact R. destruct (exponent r') as [x r''].
  destruct f as [|f0 f], x as [|x0 x]; try destruct ((c =? 48) && _); try discriminate; injection H as <- ->; reflexivity.
Qed.

(** ** Bytes *)
Lemma repr_byte_char q b rest : q = 39 \/ q = 34 ->
  exists c r, repr_byte q b = c :: r /\ c <> q /\ bytes_char (repr_byte q b ++ rest) = Some ([bZ b], rest).
Proof.
  intros Q. unfold repr_byte. pose proof (bZ_range b) as R. set (c := bZ b) in *. clearbody c.
  destruct (Z.eqb_spec c q) as [->|Nq].
  { cbn [orb]. eexists _, _; split; [reflexivity|split; [lia|]]. destruct Q as [-> | ->]; reflexivity. }
  cbn [orb].
  destruct (Z.eqb_spec c 92) as [->|N92]; [eexists _, _; split; [reflexivity|split; [lia|reflexivity]]|].
  destruct (Z.eqb_spec c 9) as [->|N9]; [eexists _, _; split; [reflexivity|split; [lia|reflexivity]]|].
  destruct (Z.eqb_spec c 10) as [->|N10]; [eexists _, _; split; [reflexivity|split; [lia|reflexivity]]|].
  destruct (Z.eqb_spec c 13) as [->|N13]; [eexists _, _; split; [reflexivity|split; [lia|reflexivity]]|].
  destruct ((c <? 32) || (127 <=? c)) eqn:P.
  - eexists _, _; split; [reflexivity|split; [lia|]].
    cbn [app bytes_char Z.eqb Pos.eqb orb negb Z.ltb Z.compare Pos.compare Pos.compare_cont]. change (byte_escape 120) with (@None Z). cbn iota.
    rewrite !hexval_digit by lia. do 3 f_equal. lia.
  - eexists _, _; split; [reflexivity|split; [exact Nq|]]. cbn [app bytes_char].
    replace ((c =? 10) || (127 <? c)) with false by lia. replace (negb (c =? 92)) with true by lia. reflexivity.
Qed.
Lemma Zb_bZ b : Zb (bZ b) = b.
Proof. pose proof (map_Zb [b]) as H. now injection H. Qed.
Lemma bytes_body_ok q rest : q = 39 \/ q = 34 -> forall b fuel, (length b < fuel)%nat ->
  bytes_body fuel q (flat_map (repr_byte q) b ++ q :: rest) = Some (b, rest).
Proof.
  intros Q. induction b as [|x b IH]; intros [|fuel] L; try (cbn in L; lia).
  - cbn [flat_map app bytes_body]. now rewrite Z.eqb_refl.
  - cbn [flat_map]. rewrite <- app_assoc.
    destruct (repr_byte_char q x (flat_map (repr_byte q) b ++ q :: rest) Q) as (c & r & E & N & C).
    rewrite E in C |- *. cbn [app bytes_body] in C |- *. apply Z.eqb_neq in N. rewrite N.
    rewrite C. rewrite IH by (cbn in L; lia). cbn [map app]. now rewrite Zb_bZ.
Qed.
Lemma repr_byte_ne q b : repr_byte q b <> [].
Proof. unfold repr_byte. repeat match goal with |- context [if ?c then _ else _] => destruct c end; discriminate. Qed.

(** ** Names *)
Lemma ident_ok n rest : ident n = true -> match rest with [] => True | c :: _ => ident_char c = false end ->
  identifier (n ++ rest) = Some (n, rest).
Proof. intros H R. unfold identifier. rewrite span_all; [now rewrite H|now apply ident_all|exact R]. Qed.
Lemma follows_ident e rest : follows e rest -> match rest with [] => True | c :: _ => ident_char c = false end.
Proof. destruct rest as [|c rest]; [auto|]. intros [-> |[-> |(_ & [-> | ->])]]; reflexivity. Qed.
Lemma ident_first n : ident n = true -> exists c r, n = c :: r /\ digit c = false /\ ident_char c = true.
Proof.
  destruct n as [|c r]; [discriminate|]. unfold ident. intros H. apply andb_prop in H. destruct H as (D & A).
  cbn [forallb] in A. apply andb_prop in A. destruct A as (A & _). exists c, r. split; [reflexivity|]. split; [|exact A].
  unfold digit. unfold is_digit in D. lia.
Qed.

(** the first character of an expression *)
Definition first_ok (c : Z) : Prop := is_space c = false /\ c <> 41 /\ c <> 44.
Lemma show_first e : wf e -> exists c r, show e = c :: r /\ first_ok c /\ (c = 45 -> match e with ENeg _ => True | _ => False end).
Proof.
  induction 1 as [z Z0|s (D & _)|b|n N|e n W IH C N|e l W IH C _|l _|e W IH]; cbn [show].
  - destruct (dec_nat_head z Z0) as (c & r & E & D & _). exists c, r. split; [exact E|]. unfold first_ok, is_space, digit in *. split; [|intros ->; discriminate]. lia.
  - destruct s as [|c r]; [contradiction|]. exists c, r. split; [reflexivity|]. unfold first_ok, is_space, digit in *. split; [|intros ->; discriminate]. lia.
  - eexists _, _. split; [reflexivity|]. split; [unfold first_ok; cbn; lia|discriminate].
  - destruct (ident_first n N) as (c & r & -> & D & I). exists c, r. split; [reflexivity|].
    unfold first_ok, is_space, ident_char, is_alnum, is_upper, is_lower, is_digit, underscore in *. split; [lia|intros ->; discriminate].
  - destruct IH as (c & r & -> & F & G). exists c, (r ++ [46] ++ n). split; [reflexivity|]. split; [exact F|]. intros X. specialize (G X). destruct e; try contradiction; discriminate.
  - destruct IH as (c & r & -> & F & G). eexists c, _. split; [reflexivity|]. split; [exact F|]. intros X. specialize (G X). destruct e; try contradiction; discriminate.
  - eexists _, _. split; [reflexivity|]. split; [unfold first_ok; cbn; lia|discriminate].
  - eexists _, _. split; [reflexivity|]. split; [unfold first_ok; cbn; lia|auto].
Qed.

(** ** Expressions *)
Definition blank (pre : str) : Prop := pre = [] \/ pre = [32].
Lemma spaces_blank pre c r : blank pre -> is_space c = false -> spaces (pre ++ c :: r) = c :: r.
Proof. intros [-> | ->] H; cbn [app]; [|rewrite spaces_32]; now apply spaces_id. Qed.
Lemma expect_blank pre x c r : blank pre -> is_space c = false -> expect x (pre ++ c :: r) = if c =? x then Some r else None.
Proof. intros B H. unfold expect. now rewrite spaces_blank. Qed.

Definition is_neg (e : expr) : bool := match e with ENeg _ => true | _ => false end.
(** The primary [e] is read, then the trailers. *)
Definition primary_ok (e : expr) : Prop := exists k, forall f pre rest, (k <= f)%nat -> blank pre -> follows e rest ->
  exists j, (f <= j + k)%nat /\ read_expr f (pre ++ show e ++ rest) = read_trailers j e rest.
Definition expr_ok (e : expr) : Prop := exists k, forall f pre rest, (k <= f)%nat -> blank pre -> ends rest ->
  read_expr f (pre ++ show e ++ rest) = Some (e, rest).

Lemma trailers_end e j rest : ends rest -> (0 < j)%nat -> read_trailers j e rest = Some (e, rest).
Proof.
  intros R J. destruct j as [|j]; [lia|]. cbn [read_trailers]. destruct rest as [|c rest]; [reflexivity|].
  destruct R as [-> | ->]; reflexivity.
Qed.
Lemma ends_follows e rest : ends rest -> follows e rest.
Proof. destruct rest as [|c rest]; [auto|]. intros [-> | ->]; [now left|right; now left]. Qed.
Lemma primary_expr e : primary_ok e -> expr_ok e.
Proof.
  intros (k & H). exists (S k). intros f pre rest F B R.
  destruct (H f pre rest ltac:(lia) B (ends_follows e rest R)) as (j & J & ->). apply trailers_end; [exact R|lia].
Qed.

(** the atoms *)
Lemma atom_primary e : wf e -> is_neg e = false ->
  (exists k, forall f rest, (k <= f)%nat -> follows e rest -> read_atom f (show e ++ rest) = Some (e, rest)) -> primary_ok e.
Proof.
  intros W N (k & H). exists (S k). intros f pre rest F B R. destruct f as [|f]; [lia|]. exists f. split; [lia|].
  cbn [read_expr]. destruct (show_first e W) as (c & r & E & (S1 & S2 & S3) & G).
  assert (X : expect 45 (pre ++ show e ++ rest) = None).
  { rewrite E. cbn [app]. rewrite expect_blank by assumption. destruct (Z.eqb_spec c 45) as [C|C]; [|reflexivity].
    specialize (G C). destruct e; try contradiction; discriminate. }
  assert (Y : spaces (pre ++ show e ++ rest) = show e ++ rest).
  { rewrite E. cbn [app]. now apply spaces_blank. }
  rewrite X, Y, H by (assumption || lia). reflexivity.
Qed.

Lemma read_list_ok : forall l, (forall x, In x l -> wf x /\ expr_ok x) ->
  exists k, forall f pre rest, (k <= f)%nat -> blank pre ->
    read_list f (pre ++ join_with comma (map show l) ++ 41 :: rest) =
      Some (l, match l with _ :: _ :: _ => true | _ => false end, rest) /\
    match l with
    | [] => True
    | _ => read_list f (pre ++ join_with comma (map show l) ++ 44 :: 41 :: rest) = Some (l, true, rest)
    end.
Proof.
  induction l as [|a l IH]; intros H.
  - exists 1%nat. intros f pre rest F B. destruct f as [|f]; [lia|]. cbn [map join_with app read_list].
    split; [|exact Logic.I]. rewrite expect_blank by (assumption || reflexivity). reflexivity.
  - destruct (IH ltac:(intros x Hx; apply H; now right)) as (k1 & K1). destruct (H a (or_introl eq_refl)) as (W & (k2 & K2)).
    exists (S (S (k1 + k2))). intros f pre rest F B. destruct f as [|f]; [lia|].
    destruct (show_first a W) as (c & r & E & (S1 & S2 & S3) & _).
    assert (X : forall t, expect 41 (pre ++ show a ++ t) = None).
    { intros t. rewrite E. cbn [app]. rewrite expect_blank by assumption. apply Z.eqb_neq in S2. now rewrite S2. }
    destruct l as [|b l].
    + cbn [map join_with app read_list]. rewrite !X.
      rewrite (K2 f pre (41 :: rest) ltac:(lia) B ltac:(now right)).
      rewrite (K2 f pre (44 :: 41 :: rest) ltac:(lia) B ltac:(now left)).
      split; [reflexivity|]. change (expect 44 (44 :: 41 :: rest)) with (Some (41 :: rest)). cbn iota.
      destruct f as [|f]; [lia|]. cbn [read_list]. reflexivity.
    + change (join_with comma (map show (a :: b :: l))) with (show a ++ comma ++ join_with comma (map show (b :: l))).
      rewrite <- !app_assoc. cbn [read_list]. rewrite !X.
      change (comma ++ ?t) with (44 :: [32] ++ t).
      rewrite (K2 f pre (44 :: [32] ++ join_with comma (map show (b :: l)) ++ 41 :: rest) ltac:(lia) B ltac:(now left)).
      rewrite (K2 f pre (44 :: [32] ++ join_with comma (map show (b :: l)) ++ 44 :: 41 :: rest) ltac:(lia) B ltac:(now left)).
      change (expect 44 (44 :: ?t)) with (Some t). cbn iota.
      destruct (K1 f [32] rest ltac:(lia) ltac:(now right)) as (K3 & K4). rewrite K3, K4. split; reflexivity.
Qed.

Lemma follows_stop e rest : follows e rest -> callable e = false -> ends rest.
Proof. destruct rest as [|c rest]; [auto|]. intros [-> |[-> |(C & _)]] N; [now left|now right|congruence]. Qed.

Lemma read_atom_name n f rest : ident n = true -> (0 < f)%nat -> match rest with [] => True | c :: _ => ident_char c = false /\ c <> 39 /\ c <> 34 end ->
  read_atom f (n ++ rest) = Some (EName n, rest).
Proof.
  intros N F R. destruct f as [|f]; [lia|]. destruct (ident_first n N) as (c & r & E & D & I).
  assert (P : c <> 40) by (intros ->; discriminate I).
  assert (Id : identifier (n ++ rest) = Some (n, rest)) by (apply ident_ok; [exact N|destruct rest; [auto|apply R]]).
  assert (Q : match r ++ rest with q :: _ => (q =? 39) || (q =? 34) = false | [] => True end).
  { destruct r as [|q r].
    - cbn [app]. destruct rest as [|q rest]; [auto|]. destruct R as (_ & A & B). lia.
    - cbn [app]. assert (J : ident_char q = true).
      { destruct (ident_all n N) as (A & _). rewrite E in A. cbn [forallb] in A. apply andb_prop in A. destruct A as (_ & A). apply andb_prop in A. apply A. }
      destruct (Z.eqb_spec q 39) as [->|]; [discriminate J|]. destruct (Z.eqb_spec q 34) as [->|]; [discriminate J|reflexivity]. }
  cbn [read_atom]. rewrite E in Id |- *. cbn [app] in Id |- *. apply Z.eqb_neq in P. rewrite P, D.
  destruct (r ++ rest) as [|q t] eqn:T; [|rewrite Q]; rewrite Id;
    repeat match goal with |- context [match ?x with _ => _ end] => is_var x; destruct x end; reflexivity.
Qed.

Lemma show_ok : forall e, wf e -> expr_ok e /\ (callable e = true -> primary_ok e).
Proof.
  induction e as [z|s|b|n|e n IH|e l IHe IH|l IH|e IH] using expr_all_ind; intros W; inversion W; subst.
  - (* number *) split; [|discriminate]. apply primary_expr, atom_primary; [exact W|reflexivity|]. exists 1%nat. intros f rest F R.
    apply follows_stop in R; [|reflexivity]. destruct f as [|f]; [lia|].
    destruct (dec_nat_head z H0) as (c & r & E & D & _). cbn [read_atom show].
    rewrite <- (number_dec z rest H0 R). rewrite E. cbn [app]. replace (c =? 40) with false by (unfold digit in D; lia). now rewrite D.
  - (* float *) split; [|discriminate]. apply primary_expr, atom_primary; [exact W|reflexivity|]. exists 1%nat. intros f rest F R.
    apply follows_stop in R; [|reflexivity]. destruct f as [|f]; [lia|]. destruct H0 as (D & E).
    cbn [read_atom show]. rewrite <- (number_app_rest s _ rest E R). destruct s as [|c s]; [contradiction|]. cbn [app].
    replace (c =? 40) with false by (unfold digit in D; lia). now rewrite D.
  - (* bytes *) split; [|discriminate]. apply primary_expr, atom_primary; [exact W|reflexivity|]. exists 1%nat. intros f rest F R.
    destruct f as [|f]; [lia|]. cbn [read_atom show]. unfold bytes_repr. cbn [app].
    change (98 =? 40) with false. change (digit 98) with false. cbn iota.
    assert (Q : bytes_quote b = 39 \/ bytes_quote b = 34) by (unfold bytes_quote; destruct (_ && _); auto).
    replace ((bytes_quote b =? 39) || (bytes_quote b =? 34)) with true by lia.
    rewrite <- app_assoc. cbn [app]. rewrite (bytes_body_ok (bytes_quote b) rest Q); [reflexivity|].
    cbn [length]. rewrite app_length. pose proof (flat_map_length (repr_byte (bytes_quote b)) b (repr_byte_ne _)). lia.
  - (* name *) assert (P : primary_ok (EName n)); [|split; [now apply primary_expr|auto]].
    apply atom_primary; [exact W|reflexivity|]. exists 1%nat. intros f rest F R. apply read_atom_name; [assumption|lia|].
    destruct rest as [|c rest]; [auto|]. destruct R as [-> |[-> |(_ & [-> | ->])]]; repeat split; discriminate.
  - (* attribute *) destruct (IH H1) as (_ & P). destruct (P H2) as (k & K).
    assert (P' : primary_ok (EAttr e n)); [|split; [now apply primary_expr|auto]].
    exists (S k). intros f pre rest F B R. cbn [show]. rewrite <- !app_assoc.
    destruct (K f pre ([46] ++ n ++ rest) ltac:(lia) B) as (j & J & ->); [right; right; split; [exact H2|now left]|].
    destruct j as [|j]; [lia|]. exists j. split; [lia|]. cbn [app read_trailers].
    change (expect 46 (46 :: n ++ rest)) with (Some (n ++ rest)). cbn iota.
    assert (E : spaces (n ++ rest) = n ++ rest).
    { destruct (ident_first n H3) as (c & r & -> & D & I). cbn [app]. apply spaces_id. now apply ident_char_head. }
    rewrite E, ident_ok; [reflexivity|assumption|apply (follows_ident _ _ R)].
  - (* call *) destruct (IHe H1) as (_ & P). destruct (P H2) as (k & K).
    destruct (read_list_ok l) as (k2 & K2); [intros x Hx; split; [now apply H3|apply IH; [exact Hx|now apply H3]]|].
    assert (P' : primary_ok (ECall e l)); [|split; [now apply primary_expr|auto]].
    exists (S (k + k2)). intros f pre rest F B R. cbn [show]. rewrite <- !app_assoc. cbn [app].
    destruct (K f pre (40 :: join_with comma (map show l) ++ 41 :: rest) ltac:(lia) B) as (j & J & ->);
      [right; right; split; [exact H2|now right]|].
    destruct j as [|j]; [lia|]. exists j. split; [lia|]. cbn [read_trailers].
    change (expect 46 (40 :: ?t)) with (@None str). change (expect 40 (40 :: ?t)) with (Some t). cbn iota.
    destruct (K2 j [] rest ltac:(lia) ltac:(now left)) as (E & _). cbn [app] in E. rewrite E. reflexivity.
  - (* tuple *) split; [|discriminate]. apply primary_expr, atom_primary; [exact W|reflexivity|].
    destruct (read_list_ok l) as (k2 & K2); [intros x Hx; split; [now apply H0|apply IH; [exact Hx|now apply H0]]|].
    exists (S k2). intros f rest F R. destruct f as [|f]; [lia|]. cbn [show app read_atom]. change (40 =? 40) with true. cbn iota.
    destruct (K2 f [] rest ltac:(lia) ltac:(now left)) as (E1 & E2). cbn [app] in E1, E2.
    destruct l as [|a [|b l]].
    + cbn [map join_with app] in *. now rewrite E1.
    + cbn [map join_with app] in *. rewrite <- app_assoc. cbn [app]. now rewrite E2.
    + rewrite <- app_assoc. cbn [app]. now rewrite E1.
  - (* minus *) split; [|discriminate]. destruct (IH H0) as ((k & K) & _). exists (S k). intros f pre rest F B R.
    destruct f as [|f]; [lia|]. cbn [show app read_expr]. rewrite expect_blank by (assumption || reflexivity).
    change (45 =? 45) with true. cbn iota. specialize (K f [] rest ltac:(lia) ltac:(now left) R). cbn [app] in K. now rewrite K.
Qed.

Theorem reads_show e : wf e -> reads (show e) e.
Proof.
  intros W. destruct (show_ok e W) as ((k & K) & _). exists k. intros n N. exists []. split; [|reflexivity].
  specialize (K n [] [] N ltac:(now left) Logic.I). cbn [app] in K. now rewrite app_nil_r in K.
Qed.
Lemma reads_fun s e e' : reads s e -> reads s e' -> e = e'.
Proof.
  intros (k & K) (k' & K'). destruct (K (k + k')%nat ltac:(lia)) as (r & E & _). destruct (K' (k + k')%nat ltac:(lia)) as (r' & E' & _).
  congruence.
Qed.
