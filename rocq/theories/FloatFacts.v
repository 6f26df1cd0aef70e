(** Lemmas about Float: rounding is to the nearest, ties to even *)
From Coq Require Import ZArith Lia Bool List.
From Verif Require Import FloatBits FloatSpec.
Local Open Scope Z_scope.

Lemma pow_split p : 2 <= p -> 2 ^ p = 2 * 2 ^ (p - 1).
Proof. intros H. replace p with (1 + (p - 1)) at 1 by lia. rewrite Z.pow_add_r by lia. reflexivity. Qed.
Lemma pow_pos' e : 0 <= e -> 0 < 2 ^ e.
Proof. intros H. apply Z.pow_pos_nonneg; lia. Qed.

(** exponent e, significand q *)
Lemma mag_form p e q : 2 <= p -> 0 <= e -> 0 <= q -> (0 < e -> 2 ^ (p - 1) <= q) -> q <= 2 ^ p ->
  mag p (e * 2 ^ (p - 1) + q) = q * 2 ^ e.
Proof.
  intros Hp He Hq N U. rewrite (pow_split p Hp) in U. unfold mag.
  assert (PP := pow_pos' (p - 1) ltac:(lia)). set (P := 2 ^ (p - 1)) in *. clearbody P.
  destruct (Z_lt_ge_dec q P) as [L|G].
  - assert (e = 0) by lia. subst e. rewrite Z.mul_0_l, Z.add_0_l, Z.div_small, Z.mod_small by lia. cbn [Z.eqb]. lia.
  - destruct (Z_lt_ge_dec q (2 * P)) as [L|G2].
    + assert (D : e * P + q = (q - P) + (e + 1) * P) by lia. rewrite D.
      rewrite Z.div_add, Z.mod_add, Z.div_small, Z.mod_small by lia.
      destruct (Z.eqb_spec (0 + (e + 1)) 0); [lia|]. replace (0 + (e + 1) - 1) with e by lia. f_equal. lia.
    + assert (q = 2 * P) by lia. subst q. assert (D : e * P + 2 * P = 0 + (e + 2) * P) by lia. rewrite D.
      rewrite Z.div_add, Z.mod_add, Z.div_small, Z.mod_small by lia.
      destruct (Z.eqb_spec (0 + (e + 2)) 0); [lia|]. replace (0 + (e + 2) - 1) with (1 + e) by lia.
      rewrite Z.pow_add_r by lia. lia.
Qed.

Lemma mag_split p k : 2 <= p -> 0 <= k -> exists e q,
  0 <= e /\ 0 <= q < 2 ^ p /\ (0 < e -> 2 ^ (p - 1) <= q) /\ k = e * 2 ^ (p - 1) + q /\ mag p k = q * 2 ^ e.
Proof.
  intros Hp Hk. assert (PP := pow_pos' (p - 1) ltac:(lia)). assert (S := pow_split p Hp).
  destruct (Z_lt_ge_dec k (2 ^ (p - 1))) as [L|G].
  - exists 0, k. repeat split; try lia. rewrite <- (mag_form p 0 k); try lia. f_equal.
  - assert (D := Z.div_mod k (2 ^ (p - 1)) ltac:(lia)). assert (M := Z.mod_pos_bound k (2 ^ (p - 1)) PP).
    assert (1 <= k / 2 ^ (p - 1)) by (apply Z.div_le_lower_bound; lia).
    exists (k / 2 ^ (p - 1) - 1), (2 ^ (p - 1) + k mod 2 ^ (p - 1)).
    assert (E : k = (k / 2 ^ (p - 1) - 1) * 2 ^ (p - 1) + (2 ^ (p - 1) + k mod 2 ^ (p - 1))) by lia.
    split; [lia|]. split; [lia|]. split; [lia|]. split; [exact E|].
    rewrite E at 1. apply mag_form; lia.
Qed.

Lemma mag_step p k : 2 <= p -> 0 <= k -> mag p k < mag p (k + 1).
Proof.
  intros Hp Hk. destruct (mag_split p k Hp Hk) as (e & q & He & Hq & N & E & ->).
  replace (k + 1) with (e * 2 ^ (p - 1) + (q + 1)) by lia.
  rewrite mag_form by lia. assert (0 < 2 ^ e) by (apply pow_pos'; lia). lia.
Qed.
Lemma mag_lt p k k' : 2 <= p -> 0 <= k -> k < k' -> mag p k < mag p k'.
Proof.
  intros Hp Hk L. replace k' with (k + 1 + (k' - k - 1)) by lia.
  assert (H : 0 <= k' - k - 1) by lia. revert H. generalize (k' - k - 1). clear k' L.
  apply natlike_ind.
  - rewrite Z.add_0_r. now apply mag_step.
  - intros d Hd IH. eapply Z.lt_trans; [exact IH|]. replace (k + 1 + Z.succ d) with (k + 1 + d + 1) by lia.
    apply mag_step; lia.
Qed.
Lemma mag_le p k k' : 2 <= p -> 0 <= k -> k <= k' -> mag p k <= mag p k'.
Proof. intros Hp Hk L. destruct (Z.eq_dec k k') as [->|N]; [lia|]. assert (X := mag_lt p k k' Hp Hk ltac:(lia)). lia. Qed.
Lemma mag_inj p k k' : 2 <= p -> 0 <= k -> 0 <= k' -> mag p k = mag p k' -> k = k'.
Proof.
  intros Hp Hk Hk' E. destruct (Ztrichotomy k k') as [L|[L|L]]; [|exact L|].
  - assert (X := mag_lt p k k' Hp Hk L). lia.
  - assert (X := mag_lt p k' k Hp Hk' ltac:(lia)). lia.
Qed.
Lemma mag_nonneg p k : 2 <= p -> 0 <= k -> 0 <= mag p k.
Proof.
  intros Hp Hk. destruct (mag_split p k Hp Hk) as (e & q & He & Hq & _ & _ & ->).
  assert (0 < 2 ^ e) by (apply pow_pos'; lia). nia.
Qed.

(** rounding of a quotient *)
Lemma rne_spec n s : 0 <= s -> 0 <= n ->
  n / 2 ^ s <= rne n s <= n / 2 ^ s + 1 /\
  2 * Z.abs (n - rne n s * 2 ^ s) <= 2 ^ s /\
  (2 * Z.abs (n - rne n s * 2 ^ s) = 2 ^ s -> Z.even (rne n s) = true).
Proof.
  intros Hs Hn. assert (PP := pow_pos' s Hs). assert (D := Z.div_mod n (2 ^ s) ltac:(lia)).
  assert (M := Z.mod_pos_bound n (2 ^ s) PP). unfold rne.
  set (d := 2 ^ s) in *. set (q := n / d) in *. set (r := n mod d) in *. clearbody d q r.
  destruct (Z.ltb_spec (2 * r) d) as [L|G].
  { repeat split; try lia; replace (n - q * d) with r by lia; lia. }
  destruct (Z.ltb_spec d (2 * r)) as [L|G2].
  { repeat split; try lia; replace (n - (q + 1) * d) with (r - d) by lia; lia. }
  destruct (Z.even q) eqn:E.
  { replace (n - q * d) with r by lia. split; [lia|]. split; [lia|]. intros _; exact E. }
  replace (n - (q + 1) * d) with (r - d) by lia. split; [lia|]. split; [lia|].
  intros _. rewrite Z.add_1_r, Z.even_succ, <- Z.negb_even, E. reflexivity.
Qed.
Lemma rne_near n s j : 0 <= s -> 0 <= n ->
  Z.abs (n - rne n s * 2 ^ s) <= Z.abs (n - j * 2 ^ s) /\
  (Z.abs (n - rne n s * 2 ^ s) = Z.abs (n - j * 2 ^ s) -> j = rne n s \/ Z.even (rne n s) = true).
Proof.
  intros Hs Hn. destruct (rne_spec n s Hs Hn) as (_ & A & B). assert (PP := pow_pos' s Hs).
  set (d := 2 ^ s) in *. set (q := rne n s) in *. clearbody d q.
  destruct (Z.eq_dec j q) as [->|N]; [split; [lia|auto]|].
  assert (d <= Z.abs ((j - q) * d)) by (rewrite Z.abs_mul; nia).
  assert (X : n - j * d = (n - q * d) - (j - q) * d) by lia. rewrite X.
  set (a := n - q * d) in *. set (c := (j - q) * d) in *. clearbody a c. split; [lia|].
  intros E. right. apply B. lia.
Qed.

Lemma enc_form p n s : 2 <= p -> 0 <= n -> 0 <= s -> exists e q,
  0 <= e /\ 0 <= q <= 2 ^ p /\ (0 < e -> 2 ^ (p - 1) <= q /\ 2 ^ (p - 1) * 2 ^ (s + e) <= n) /\
  q = rne n (s + e) /\ enc p n s = e * 2 ^ (p - 1) + q /\ mag p (enc p n s) = q * 2 ^ e.
Proof.
  intros Hp Hn Hs. set (u := n / 2 ^ s). set (e := Z.max 0 (Z.log2 u - (p - 1))).
  assert (PS := pow_pos' s Hs). assert (Hu : 0 <= u) by (apply Z.div_pos; lia).
  assert (He : 0 <= e) by lia. assert (PSE := pow_pos' (s + e) ltac:(lia)).
  assert (Eu : u < 2 ^ (p + e)).
  { destruct (Z.eq_dec u 0) as [->|N]; [apply pow_pos'; lia|].
    destruct (Z.log2_spec u ltac:(lia)) as (_ & L). eapply Z.lt_le_trans; [exact L|]. apply Z.pow_le_mono_r; lia. }
  assert (Du : n = 2 ^ s * u + n mod 2 ^ s) by (apply Z.div_mod; lia).
  assert (Mu := Z.mod_pos_bound n (2 ^ s) PS).
  assert (EN : n < 2 ^ p * 2 ^ (s + e)).
  { rewrite Z.pow_add_r by lia. rewrite Z.pow_add_r in Eu by lia. nia. }
  assert (FL : n / 2 ^ (s + e) < 2 ^ p) by (apply Z.div_lt_upper_bound; lia).
  destruct (rne_spec n (s + e) ltac:(lia) Hn) as (R & _ & _).
  assert (F0 : 0 <= n / 2 ^ (s + e)) by (apply Z.div_pos; lia).
  assert (NN : 0 < e -> 2 ^ (p - 1) <= rne n (s + e) /\ 2 ^ (p - 1) * 2 ^ (s + e) <= n).
  { intros H. assert (LU : 2 ^ (p - 1 + e) <= u).
    { assert (U0 : 0 < u). { destruct (Z.eq_dec u 0) as [U0|N]; [|lia]. unfold e in H. rewrite U0 in H. cbn in H. lia. }
      destruct (Z.log2_spec u U0) as (L & _). eapply Z.le_trans; [|exact L]. apply Z.pow_le_mono_r; lia. }
    assert (LN : 2 ^ (p - 1) * 2 ^ (s + e) <= n).
    { rewrite Z.pow_add_r by lia. rewrite Z.pow_add_r in LU by lia. nia. }
    assert (2 ^ (p - 1) <= n / 2 ^ (s + e)) by (apply Z.div_le_lower_bound; lia). lia. }
  exists e, (rne n (s + e)). split; [exact He|]. split; [lia|]. split; [exact NN|]. split; [reflexivity|].
  assert (EE : enc p n s = e * 2 ^ (p - 1) + rne n (s + e)) by reflexivity. split; [exact EE|].
  rewrite EE. apply mag_form; try lia.
Qed.
Lemma enc_nonneg p n s : 2 <= p -> 0 <= n -> 0 <= s -> 0 <= enc p n s.
Proof.
  intros Hp Hn Hs. destruct (enc_form p n s Hp Hn Hs) as (e & q & He & Hq & _ & _ & -> & _).
  assert (0 < 2 ^ (p - 1)) by (apply pow_pos'; lia). nia.
Qed.

(** The number of pattern [enc p n s] is the nearest to n / 2^s *)
Theorem enc_near p n s k : 2 <= p -> 0 <= n -> 0 <= s -> 0 <= k ->
  Z.abs (n - mag p (enc p n s) * 2 ^ s) <= Z.abs (n - mag p k * 2 ^ s) /\
  (Z.abs (n - mag p (enc p n s) * 2 ^ s) = Z.abs (n - mag p k * 2 ^ s) -> k = enc p n s \/ Z.even (enc p n s) = true).
Proof.
  intros Hp Hn Hs Hk. destruct (enc_form p n s Hp Hn Hs) as (e & q & He & Hq & N & Q & EE & ME).
  destruct (mag_split p k Hp Hk) as (e' & q' & He' & Hq' & N' & KK & MK).
  assert (EV : Z.even (enc p n s) = Z.even q).
  { rewrite EE, Z.even_add, Z.even_mul, (Z.even_pow 2) by lia. rewrite orb_true_r. now destruct (Z.even q). }
  rewrite EV. clear EV. rewrite ME.
  assert (A1 : q * 2 ^ e * 2 ^ s = rne n (s + e) * 2 ^ (s + e)) by (rewrite Q, Z.pow_add_r by lia; lia).
  rewrite A1. destruct (Z_le_gt_dec e e') as [L|G].
  - assert (A2 : mag p k * 2 ^ s = (q' * 2 ^ (e' - e)) * 2 ^ (s + e)).
    { rewrite MK. replace e' with (e + (e' - e)) at 1 by lia. rewrite !Z.pow_add_r by lia. lia. }
    rewrite A2. destruct (rne_near n (s + e) (q' * 2 ^ (e' - e)) ltac:(lia) Hn) as (B & C). split; [exact B|].
    intros E. destruct (C E) as [J|J]; [left|right; now rewrite Q].
    apply (mag_inj p); [lia|lia|apply enc_nonneg; lia|].
    rewrite ME, MK, Q, <- J. replace e' with (e + (e' - e)) at 1 by lia. rewrite Z.pow_add_r by lia. lia.
  - destruct (rne_near n (s + e) (2 ^ (p - 1)) ltac:(lia) Hn) as (B & _).
    destruct (N ltac:(lia)) as (_ & LN).
    assert (LT : mag p k * 2 ^ s < 2 ^ (p - 1) * 2 ^ (s + e)).
    { rewrite MK, Z.pow_add_r by lia. rewrite (pow_split p Hp) in Hq'.
      assert (0 < 2 ^ s) by (apply pow_pos'; lia). assert (PE' := pow_pos' e' He').
      assert (2 * 2 ^ e' <= 2 ^ e) by (replace (2 * 2 ^ e') with (2 ^ (1 + e')) by (rewrite Z.pow_add_r by lia; reflexivity); apply Z.pow_le_mono_r; lia).
      assert (PP := pow_pos' (p - 1) ltac:(lia)).
      set (P := 2 ^ (p - 1)) in *. set (E := 2 ^ e) in *. set (E' := 2 ^ e') in *. set (T := 2 ^ s) in *.
      clearbody P E E' T. clear - Hq' H H0 PE' PP.
      assert (q' * E' < P * E) by nia. nia. }
    split; lia.
Qed.

(** a number of the format is its own rounding *)
Lemma enc_exact p s k : 2 <= p -> 0 <= s -> 0 <= k -> enc p (mag p k * 2 ^ s) s = k.
Proof.
  intros Hp Hs Hk. assert (M := mag_nonneg p k Hp Hk). assert (PS := pow_pos' s Hs).
  destruct (enc_near p (mag p k * 2 ^ s) s k Hp ltac:(nia) Hs Hk) as (A & _).
  assert (X : mag p (enc p (mag p k * 2 ^ s) s) * 2 ^ s = mag p k * 2 ^ s) by lia.
  apply Z.mul_reg_r in X; [|lia]. apply (mag_inj p); try lia. apply enc_nonneg; nia.
Qed.
(** so is every number with at most p significant bits *)
Lemma enc_short p m e : 2 <= p -> 0 <= m < 2 ^ p -> 0 <= e -> mag p (enc p (m * 2 ^ e) 0) = m * 2 ^ e.
Proof.
  intros Hp Hm He. assert (PE := pow_pos' e He).
  destruct (enc_form p (m * 2 ^ e) 0 Hp ltac:(nia) ltac:(lia)) as (e' & q & He' & Hq & N & Q & EE & ->).
  rewrite Z.add_0_l in *. assert (PE' := pow_pos' e' He').
  assert (L : e' <= e).
  { destruct (Z_le_gt_dec e' e) as [L|G]; [exact L|]. exfalso. destruct (N ltac:(lia)) as (_ & LN).
    rewrite (pow_split p Hp) in Hm.
    assert (2 * 2 ^ e <= 2 ^ e') by (replace (2 * 2 ^ e) with (2 ^ (1 + e)) by (rewrite Z.pow_add_r by lia; reflexivity); apply Z.pow_le_mono_r; lia).
    assert (PP := pow_pos' (p - 1) ltac:(lia)). nia. }
  assert (X : m * 2 ^ e = (m * 2 ^ (e - e')) * 2 ^ e').
  { replace e with (e - e' + e') at 1 by lia. rewrite Z.pow_add_r by lia. lia. }
  destruct (rne_near (m * 2 ^ e) e' (m * 2 ^ (e - e')) He' ltac:(nia)) as (A & _). rewrite <- X, Z.sub_diag, <- Q in A. lia.
Qed.

(** below the pattern [k] of a power of two *)
Lemma enc_below p n s k : 2 <= p -> 0 <= n -> 0 <= s -> 0 < k -> Z.even k = true ->
  (enc p n s < k <-> 2 * n < (mag p (k - 1) + mag p k) * 2 ^ s).
Proof.
  intros Hp Hn Hs Hk Ev. assert (PS := pow_pos' s Hs). assert (E0 := enc_nonneg p n s Hp Hn Hs).
  assert (ML := mag_lt p (k - 1) k Hp ltac:(lia) ltac:(lia)).
  destruct (enc_near p n s k Hp Hn Hs ltac:(lia)) as (A1 & A2).
  destruct (enc_near p n s (k - 1) Hp Hn Hs ltac:(lia)) as (B1 & _).
  split.
  - intros L. assert (MI := mag_le p _ (k - 1) Hp E0 ltac:(lia)).
    destruct (Z_lt_ge_dec (2 * n) ((mag p (k - 1) + mag p k) * 2 ^ s)) as [C|C]; [exact C|exfalso].
    assert (M1 : mag p (enc p n s) * 2 ^ s <= mag p (k - 1) * 2 ^ s) by nia.
    assert (M2 : mag p (k - 1) * 2 ^ s < mag p k * 2 ^ s) by nia.
    rewrite Z.mul_add_distr_r in C.
    assert (EQ : mag p (enc p n s) * 2 ^ s = mag p (k - 1) * 2 ^ s) by lia.
    apply Z.mul_reg_r in EQ; [|lia]. apply mag_inj in EQ; [|lia..].
    destruct A2 as [A2|A2]; [lia|lia|].
    rewrite EQ, Z.even_sub, Ev in A2. discriminate A2.
  - intros L. destruct (Z_lt_ge_dec (enc p n s) k) as [C|C]; [exact C|exfalso].
    assert (MI := mag_le p k _ Hp ltac:(lia) (Z.ge_le _ _ C)).
    assert (M1 : mag p k * 2 ^ s <= mag p (enc p n s) * 2 ^ s) by nia.
    assert (M2 : mag p (k - 1) * 2 ^ s < mag p k * 2 ^ s) by nia.
    rewrite Z.mul_add_distr_r in L. lia.
Qed.

(** ** Patterns *)

Record fmt_ok (f : format) : Prop := {
  ok_p : 2 <= fp f; ok_i : 0 < fi f; ok_ev : Z.even (fi f) = true; ok_s : fi f < fs f; ok_sev : Z.even (fs f) = true }.
Lemma single_ok : fmt_ok single. Proof. constructor; vm_compute; congruence. Qed.
Lemma double_ok : fmt_ok double. Proof. constructor; vm_compute; congruence. Qed.

Section Pat.
  Context (f : format) (F : fmt_ok f).
  Lemma body_bounds b : bits f b -> 0 <= body f b < fs f.
  Proof. unfold bits, body, neg. destruct (Z.leb_spec (fs f) b); lia. Qed.
  Lemma neg_signed n k : 0 <= k < fs f -> neg f (signed f n k) = n.
  Proof. unfold neg, signed. intros H. destruct n; [destruct (Z.leb_spec (fs f) (fs f + k))|destruct (Z.leb_spec (fs f) k)]; lia || reflexivity. Qed.
  Lemma body_signed n k : 0 <= k < fs f -> body f (signed f n k) = k.
  Proof. intros H. unfold body. rewrite neg_signed by exact H. unfold signed. destruct n; lia. Qed.
  Lemma bits_signed n k : 0 <= k < fs f -> bits f (signed f n k).
  Proof. intros H. unfold bits, signed. destruct n; lia. Qed.
  Lemma signed_eta b : signed f (neg f b) (body f b) = b.
  Proof. unfold signed, body, neg. destruct (Z.leb_spec (fs f) b); lia. Qed.
  Lemma even_signed n k : Z.even (signed f n k) = Z.even k.
  Proof. unfold signed. destruct n; [|reflexivity]. rewrite Z.even_add, (ok_sev f F). now destruct (Z.even k). Qed.

  (** rounding |v| and giving the result the sign of v is rounding v *)
  Lemma near_signed (v s : Z) (n : bool) : 0 <= s ->
    let k := enc (fp f) (Z.abs v) s in
    (n = true -> v <= 0) -> (n = false -> 0 <= v) -> s = 1074 - fu f -> k < fi f ->
    nearest f v (signed f n k).
  Proof.
    intros Hs k N1 N2 -> K c Bc Fc. assert (P2 := ok_p f F). assert (S := ok_s f F).
    assert (K0 : 0 <= k) by (apply enc_nonneg; lia).
    assert (Bk : 0 <= k < fs f) by lia.
    set (s := 1074 - fu f) in *. assert (PS := pow_pos' s Hs).
    destruct (body_bounds c Bc) as (C0 & C1). assert (MC := mag_nonneg (fp f) (body f c) P2 C0).
    assert (MK := mag_nonneg (fp f) k P2 K0).
    destruct (enc_near (fp f) (Z.abs v) s (body f c) P2 ltac:(lia) Hs C0) as (A1 & A2).
    destruct (enc_near (fp f) (Z.abs v) s 0 P2 ltac:(lia) Hs ltac:(lia)) as (B1 & B2).
    assert (M0 : mag (fp f) 0 = 0) by (unfold mag; rewrite Z.div_0_l, Z.mod_0_l by (apply Z.pow_nonzero; lia); reflexivity).
    rewrite M0, Z.mul_0_l, Z.sub_0_r in B1, B2.
    rewrite even_signed. fold k in A1, A2, B1, B2.
    unfold fvalue. rewrite neg_signed, body_signed by exact Bk. fold s.
    assert (E1 : body f c = k -> mag (fp f) (body f c) * 2 ^ s = mag (fp f) k * 2 ^ s) by (intros ->; reflexivity).
    assert (E2 : 0 = k -> mag (fp f) k * 2 ^ s = 0) by (intros <-; rewrite M0; reflexivity).
    assert (XS : 0 <= mag (fp f) k * 2 ^ s) by nia. assert (YS : 0 <= mag (fp f) (body f c) * 2 ^ s) by nia.
    rewrite <- !Z.mul_assoc.
    set (X := mag (fp f) k * 2 ^ s) in *. set (Y := mag (fp f) (body f c) * 2 ^ s) in *. clearbody X Y.
    clear MC MK M0 PS K Bk.
    destruct n; [specialize (N1 eq_refl)|specialize (N2 eq_refl)]; destruct (neg f c).
    - split; [lia|]. intros E. destruct A2 as [A2|A2]; [lia| |right; exact A2]. left. rewrite (E1 A2). reflexivity.
    - split; [lia|]. intros E. destruct B2 as [B2|B2]; [lia| |right; exact B2]. left. specialize (E2 B2). lia.
    - split; [lia|]. intros E. destruct B2 as [B2|B2]; [lia| |right; exact B2]. left. specialize (E2 B2). lia.
    - split; [lia|]. intros E. destruct A2 as [A2|A2]; [lia| |right; exact A2]. left. rewrite (E1 A2). reflexivity.
  Qed.
End Pat.

(** ** The conversions *)

Lemma fvalue_double b : fvalue double b = (if neg double b then -1 else 1) * mag 53 (body double b).
Proof. unfold fvalue. change (1074 - fu double) with 0. change (fp double) with 53. lia. Qed.
Lemma abs_double b : bits double b -> Z.abs (fvalue double b) = mag 53 (body double b).
Proof.
  intros B. rewrite fvalue_double. destruct (body_bounds double b B) as (B0 & _).
  assert (M := mag_nonneg 53 (body double b) ltac:(lia) B0). destruct (neg double b); lia.
Qed.

Lemma half32 : (mag 24 (fi single - 1) + mag 24 (fi single)) * 2 ^ 925 = 2 * overflow32.
Proof. vm_compute. reflexivity. Qed.
Lemma half64 : (mag 53 (fi double - 1) + mag 53 (fi double)) * 2 ^ 0 = 2 * overflow64.
Proof. vm_compute. reflexivity. Qed.

Lemma to32_finite b : bits double b -> finite double b ->
  to32 b = signed single (neg double b) (Z.min (fi single) (enc 24 (mag 53 (body double b)) 925)).
Proof.
  intros B F. unfold to32, finite in *. destruct (Z.ltb_spec (fi double) (body double b)); [lia|].
  destruct (Z.eqb_spec (body double b) (fi double)); [lia|]. reflexivity.
Qed.

Theorem to32_nearest b : bits double b -> finite double b -> Z.abs (fvalue double b) < overflow32 ->
  bits single (to32 b) /\ finite single (to32 b) /\ neg single (to32 b) = neg double b /\ nearest single (fvalue double b) (to32 b).
Proof.
  intros B F O. rewrite to32_finite by assumption. destruct (body_bounds double b B) as (B0 & _).
  assert (AB := abs_double b B). assert (M := mag_nonneg 53 (body double b) ltac:(lia) B0). rewrite AB in O.
  assert (L : enc 24 (mag 53 (body double b)) 925 < fi single).
  { apply enc_below; try lia; [reflexivity|reflexivity|]. rewrite half32. lia. }
  assert (E0 := enc_nonneg 24 (mag 53 (body double b)) 925 ltac:(lia) M ltac:(lia)).
  rewrite Z.min_r by lia. assert (SS := ok_s single single_ok).
  split; [apply bits_signed; lia|]. unfold finite. rewrite body_signed, neg_signed by lia.
  split; [exact L|]. split; [reflexivity|].
  rewrite <- AB in *. change 24 with (fp single) in *.
  apply (near_signed single single_ok (fvalue double b) 925 (neg double b)); [lia| | |reflexivity|exact L].
  - intros N. rewrite fvalue_double, N. rewrite AB in M. lia.
  - intros N. rewrite fvalue_double, N. rewrite AB in M. lia.
Qed.

Theorem to32_overflow b : bits double b -> finite double b -> overflow32 <= Z.abs (fvalue double b) ->
  to32 b = signed single (neg double b) (fi single).
Proof.
  intros B F O. rewrite to32_finite by assumption. destruct (body_bounds double b B) as (B0 & _).
  assert (M := mag_nonneg 53 (body double b) ltac:(lia) B0). rewrite abs_double in O by exact B.
  f_equal. apply Z.min_l. destruct (Z_lt_ge_dec (enc 24 (mag 53 (body double b)) 925) (fi single)) as [L|G]; [|lia].
  apply enc_below in L; try lia; [|reflexivity|reflexivity]. rewrite half32 in L. lia.
Qed.
Lemma to32_infinite b : infinite double b -> to32 b = signed single (neg double b) (fi single).
Proof. intros I. unfold to32, infinite in *. rewrite I, Z.ltb_irrefl, Z.eqb_refl. reflexivity. Qed.
Lemma to32_nan b : is_nan double b -> to32 b = signed single (neg double b) (fi single + 2 ^ 22).
Proof. intros I. unfold to32, is_nan in *. destruct (Z.ltb_spec (fi double) (body double b)); [reflexivity|lia]. Qed.

Lemma to32_bits b : bits double b -> bits single (to32 b).
Proof.
  intros B. destruct (Ztrichotomy (body double b) (fi double)) as [L|[E|G]].
  - destruct (Z_lt_ge_dec (Z.abs (fvalue double b)) overflow32) as [O|O].
    + apply to32_nearest; assumption.
    + rewrite to32_overflow by (assumption || lia). apply bits_signed. vm_compute. split; congruence.
  - rewrite to32_infinite by exact E. apply bits_signed. vm_compute. split; congruence.
  - rewrite to32_nan by (unfold is_nan; lia). apply bits_signed. vm_compute. split; congruence.
Qed.

(** from Float32 to Float64 nothing is lost *)
Lemma to64_form b : bits single b -> finite single b -> exists k, 0 <= k < fi double /\
  to64 b = signed double (neg single b) k /\ mag 53 k = mag 24 (body single b) * 2 ^ 925.
Proof.
  intros B F. destruct (body_bounds single b B) as (B0 & _). unfold finite in F.
  assert (P := pow_pos' 925 ltac:(lia)).
  exists (enc 53 (mag 24 (body single b) * 2 ^ 925) 0).
  assert (M : mag 53 (enc 53 (mag 24 (body single b) * 2 ^ 925) 0) = mag 24 (body single b) * 2 ^ 925).
  { destruct (mag_split 24 (body single b) ltac:(lia) B0) as (e & q & He & Hq & _ & _ & ->).
    rewrite <- Z.mul_assoc, <- Z.pow_add_r by lia. apply enc_short; [lia| |lia].
    split; [lia|]. eapply Z.lt_trans; [apply Hq|]. reflexivity. }
  assert (MN := mag_nonneg 24 (body single b) ltac:(lia) B0).
  assert (E0 := enc_nonneg 53 (mag 24 (body single b) * 2 ^ 925) 0 ltac:(lia) ltac:(nia) ltac:(lia)).
  assert (L : enc 53 (mag 24 (body single b) * 2 ^ 925) 0 < fi double).
  { destruct (Z_lt_ge_dec (enc 53 (mag 24 (body single b) * 2 ^ 925) 0) (fi double)) as [L|G]; [exact L|exfalso].
    assert (X := mag_le 53 (fi double) _ ltac:(lia) ltac:(vm_compute; congruence) (Z.ge_le _ _ G)). rewrite M in X.
    assert (Y := mag_lt 24 _ _ ltac:(lia) B0 F).
    assert (W : mag 24 (fi single) * 2 ^ 925 < mag 53 (fi double)) by (vm_compute; reflexivity). nia. }
  split; [lia|]. split; [|exact M].
  unfold to64, round. change (fp double) with 53. change (fp single) with 24. change (fu double - fu single) with 925.
  destruct (Z.ltb_spec (fi single) (body single b)); [lia|]. destruct (Z.eqb_spec (body single b) (fi single)); [lia|].
  rewrite Z.min_r by lia. reflexivity.
Qed.
Theorem to64_exact b : bits single b -> finite single b ->
  bits double (to64 b) /\ finite double (to64 b) /\ fvalue double (to64 b) = fvalue single b /\ to32 (to64 b) = b.
Proof.
  intros B F. destruct (to64_form b B F) as (k & K & -> & M). destruct (body_bounds single b B) as (B0 & _).
  assert (SS := ok_s double double_ok).
  assert (BD : bits double (signed double (neg single b) k)) by (apply bits_signed; lia).
  assert (FD : finite double (signed double (neg single b) k)) by (unfold finite; rewrite body_signed; lia).
  split; [exact BD|]. split; [exact FD|]. split.
  - rewrite fvalue_double, neg_signed, body_signed, M by lia. unfold fvalue. change (fp single) with 24. change (1074 - fu single) with 925. lia.
  - rewrite to32_finite by assumption. rewrite neg_signed, body_signed, M by lia.
    rewrite enc_exact by lia. unfold finite in F. rewrite Z.min_r by lia. apply signed_eta.
Qed.
Theorem to64_nonfinite b : bits single b ->
  (infinite single b -> infinite double (to64 b) /\ neg double (to64 b) = neg single b /\ to32 (to64 b) = b) /\
  (is_nan single b -> is_nan double (to64 b) /\ neg double (to64 b) = neg single b /\ is_nan single (to32 (to64 b))).
Proof.
  intros B. split; intros H.
  - assert (E : to64 b = signed double (neg single b) (fi double)) by (unfold to64, infinite in *; rewrite H, Z.ltb_irrefl, Z.eqb_refl; reflexivity).
    assert (R : 0 <= fi double < fs double) by (vm_compute; split; congruence).
    assert (I : infinite double (to64 b)) by (rewrite E; unfold infinite; rewrite body_signed; auto).
    split; [exact I|]. rewrite (to32_infinite _ I), E, neg_signed by exact R. split; [reflexivity|].
    unfold infinite in H. rewrite <- H. apply signed_eta.
  - assert (E : to64 b = signed double (neg single b) (fi double + 2 ^ 51)).
    { unfold to64, is_nan in *. destruct (Z.ltb_spec (fi single) (body single b)); [reflexivity|lia]. }
    assert (R : 0 <= fi double + 2 ^ 51 < fs double) by (vm_compute; split; congruence).
    assert (I : is_nan double (to64 b)) by (rewrite E; unfold is_nan; rewrite body_signed by exact R; lia).
    split; [exact I|]. rewrite (to32_nan _ I), E, neg_signed by exact R. split; [reflexivity|].
    unfold is_nan. rewrite body_signed by (vm_compute; split; congruence). lia.
Qed.

(** ints *)
Theorem int_to64_spec z :
  match int_to64 z with
  | Some b => bits double b /\ finite double b /\ neg double b = (z <? 0) /\
              nearest double (z * 2 ^ 1074) b /\ Z.abs (z * 2 ^ 1074) < overflow64
  | None => overflow64 <= Z.abs (z * 2 ^ 1074)
  end.
Proof.
  assert (P := pow_pos' 1074 ltac:(lia)). unfold int_to64. change (fp double) with 53. change (fu double) with 1074.
  assert (AZ : Z.abs z * 2 ^ 1074 = Z.abs (z * 2 ^ 1074)) by (rewrite Z.abs_mul, (Z.abs_eq (2 ^ 1074)) by lia; reflexivity).
  rewrite AZ. assert (E0 := enc_nonneg 53 (Z.abs (z * 2 ^ 1074)) 0 ltac:(lia) ltac:(lia) ltac:(lia)).
  assert (H := enc_below 53 (Z.abs (z * 2 ^ 1074)) 0 (fi double) ltac:(lia) ltac:(lia) ltac:(lia) ltac:(reflexivity) ltac:(reflexivity)).
  rewrite half64 in H. destruct (Z.leb_spec (fi double) (enc 53 (Z.abs (z * 2 ^ 1074)) 0)) as [G|L].
  - destruct (Z_lt_ge_dec (Z.abs (z * 2 ^ 1074)) overflow64) as [L|C]; [|lia]. destruct H as [_ H]. lia.
  - assert (SS := ok_s double double_ok). split; [apply bits_signed; lia|]. split; [unfold finite; rewrite body_signed; lia|].
    split; [apply neg_signed; lia|]. split; [|destruct H as [H _]; lia].
    change 53 with (fp double) in *.
    apply (near_signed double double_ok (z * 2 ^ 1074) 0 (z <? 0)); [lia| | |reflexivity|exact L].
    + intros N. apply Z.ltb_lt in N. nia.
    + intros N. apply Z.ltb_ge in N. nia.
Qed.
Theorem int_to64_exact z : Z.abs z <= 2 ^ 53 -> exists b, int_to64 z = Some b /\ bits double b /\ finite double b /\ fvalue double b = z * 2 ^ 1074.
Proof.
  intros H. assert (S := int_to64_spec z). assert (P := pow_pos' 1074 ltac:(lia)).
  assert (AZ : Z.abs (z * 2 ^ 1074) = Z.abs z * 2 ^ 1074) by (rewrite Z.abs_mul, (Z.abs_eq (2 ^ 1074)) by lia; reflexivity).
  assert (M : mag 53 (enc 53 (Z.abs z * 2 ^ 1074) 0) = Z.abs z * 2 ^ 1074).
  { destruct (Z.eq_dec (Z.abs z) (2 ^ 53)) as [->|N].
    - vm_compute. reflexivity.
    - apply enc_short; lia. }
  unfold int_to64 in *. change (fp double) with 53 in *. change (fu double) with 1074 in *.
  destruct (Z.leb_spec (fi double) (enc 53 (Z.abs z * 2 ^ 1074) 0)) as [G|L].
  - exfalso. rewrite AZ in S. assert (X : 2 ^ 53 * 2 ^ 1074 < overflow64) by (vm_compute; reflexivity). nia.
  - destruct S as (B & F & _). eexists. split; [reflexivity|]. split; [exact B|]. split; [exact F|].
    assert (E0 := enc_nonneg 53 (Z.abs z * 2 ^ 1074) 0 ltac:(lia) ltac:(nia) ltac:(lia)). assert (SS := ok_s double double_ok).
    rewrite fvalue_double, neg_signed, body_signed, M by lia. destruct (Z.ltb_spec z 0); lia.
Qed.

(** "nearest" leaves no choice *)
Theorem nearest_unique f v y y' : fmt_ok f -> bits f y -> bits f y' -> finite f y -> finite f y' ->
  neg f y = neg f y' -> nearest f v y -> nearest f v y' -> fu f <= 1074 -> y = y'.
Proof.
  intros OK B B' F F' N H H' U.
  destruct (H y' B' F') as (A1 & A2). destruct (H' y B F) as (A1' & A2').
  destruct (body_bounds f y B) as (K0 & K1). destruct (body_bounds f y' B') as (K0' & K1').
  assert (P2 := ok_p f OK). assert (PS := pow_pos' (1074 - fu f) ltac:(lia)).
  destruct (Z.eq_dec (body f y) (body f y')) as [E|NE].
  { rewrite <- (signed_eta f y), <- (signed_eta f y'), N, E. reflexivity. }
  exfalso.
  assert (V : forall z, fvalue f z = (if neg f z then -1 else 1) * (mag (fp f) (body f z) * 2 ^ (1074 - fu f))) by (intros z; unfold fvalue; lia).
  assert (NV : fvalue f y <> fvalue f y').
  { rewrite !V, N. intros E. apply NE. apply (mag_inj (fp f)); try lia. destruct (neg f y'); nia. }
  assert (EV : Z.even y = true) by (destruct A2 as [X|X]; [lia|congruence|exact X]).
  assert (EV' : Z.even y' = true) by (destruct A2' as [X|X]; [lia|congruence|exact X]).
  rewrite <- (signed_eta f y), even_signed in EV by exact OK. rewrite <- (signed_eta f y'), even_signed in EV' by exact OK.
  assert (G : forall a b, bits f a -> bits f b -> finite f b -> neg f a = neg f b -> Z.even (body f a) = true -> Z.even (body f b) = true -> body f a < body f b ->
            Z.abs (v - fvalue f a) = Z.abs (v - fvalue f b) -> nearest f v a -> False).
  { clear - OK P2 PS V. intros a b Ba Bb Fb Nab Ea Eb L D Ha.
    destruct (body_bounds f a Ba) as (A0 & A1). destruct (body_bounds f b Bb) as (B0 & B1). unfold finite in Fb. assert (S := ok_s f OK).
    assert (L2 : body f a + 1 < body f b).
    { destruct (Z.eq_dec (body f a + 1) (body f b)) as [E|NE]; [|lia]. rewrite <- E, Z.even_add, Ea in Eb. discriminate Eb. }
    set (c := signed f (neg f a) (body f a + 1)).
    assert (Bc : bits f c) by (apply bits_signed; lia).
    assert (Fc : finite f c) by (unfold finite, c; rewrite body_signed; lia).
    destruct (Ha c Bc Fc) as (X & _). rewrite !V in *. unfold c in X. rewrite neg_signed, body_signed in X by lia. rewrite <- Nab in D.
    assert (M1 := mag_lt (fp f) (body f a) (body f a + 1) P2 A0 ltac:(lia)).
    assert (M2 := mag_lt (fp f) (body f a + 1) (body f b) P2 ltac:(lia) L2).
    apply (Z.mul_lt_mono_pos_r (2 ^ (1074 - fu f)) _ _ PS) in M1. apply (Z.mul_lt_mono_pos_r (2 ^ (1074 - fu f)) _ _ PS) in M2.
    destruct (neg f a); lia. }
  destruct (Z_lt_ge_dec (body f y) (body f y')) as [L|L].
  - eapply (G y y'); eauto. lia.
  - eapply (G y' y); eauto; lia.
Qed.
