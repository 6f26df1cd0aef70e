(** Lemmas about [Base]. *)
From Verif Require Import Base.
From Coq Require Import Strings.Byte ZifyBool ZifyNat ZifyN.

Ltac Zify.zify_post_hook ::= Z.div_mod_to_equations.

(** ** bytes *)

Lemma bZ_range b : 0 <= bZ b < 256.
Proof.
  unfold bZ. pose proof (Byte.to_N_bounded b). lia.
Qed.

Lemma Zb_bZ b : Zb (bZ b) = b.
Proof.
  unfold Zb, bZ. pose proof (Byte.to_N_bounded b) as H.
  rewrite Z.mod_small by lia. rewrite N2Z.id.
  rewrite Byte.of_to_N. reflexivity.
Qed.

Lemma bZ_Zb z : bZ (Zb z) = z mod 256.
Proof.
  unfold Zb, bZ. pose proof (Z.mod_pos_bound z 256 ltac:(lia)) as H.
  destruct (Byte.of_N (Z.to_N (z mod 256))) eqn:E.
  - apply Byte.to_of_N in E. rewrite E. lia.
  - apply Byte.of_N_None_iff in E. lia.
Qed.

Lemma bZ_inj a b : bZ a = bZ b -> a = b.
Proof. intros H. rewrite <- (Zb_bZ a), <- (Zb_bZ b), H. reflexivity. Qed.

Lemma Zb_mod z : Zb (z mod 256) = Zb z.
Proof. apply bZ_inj. rewrite !bZ_Zb. apply Z.mod_mod. lia. Qed.

Lemma bZ_x00 : bZ x00 = 0.
Proof. reflexivity. Qed.

(** ** lengths *)

Lemma blen_nonneg {A} (l : list A) : 0 <= blen l.
Proof. unfold blen. lia. Qed.

Lemma blen_nil {A} : blen (@nil A) = 0.
Proof. reflexivity. Qed.

Lemma blen_cons {A} (x : A) l : blen (x :: l) = blen l + 1.
Proof. unfold blen. cbn [length]. lia. Qed.

Lemma blen_app {A} (a b : list A) : blen (a ++ b) = blen a + blen b.
Proof. unfold blen. rewrite app_length. lia. Qed.

Lemma blen_zeros n : 0 <= n -> blen (zeros n) = n.
Proof. intros. unfold blen, zeros. rewrite repeat_length. lia. Qed.

Lemma blen_firstn {A} (l : list A) n :
  blen (firstn (Z.to_nat n) l) = Z.max 0 (Z.min n (blen l)).
Proof. unfold blen. rewrite firstn_length. lia. Qed.

Lemma blen_skipn {A} (l : list A) n :
  blen (skipn (Z.to_nat n) l) = Z.max 0 (blen l - Z.max 0 n).
Proof. unfold blen. rewrite skipn_length. lia. Qed.

Lemma blen_sub {A} (l : list A) i n :
  0 <= i -> 0 <= n -> i + n <= blen l -> blen (sub l i n) = n.
Proof. intros. unfold sub. rewrite blen_firstn, blen_skipn. lia. Qed.

Lemma blen_upd {A} (l : list A) i bs :
  0 <= i -> i + blen bs <= blen l -> blen (upd l i bs) = blen l.
Proof.
  intros. unfold upd. rewrite !blen_app, blen_firstn, blen_skipn.
  pose proof (blen_nonneg bs). lia.
Qed.

Lemma blen_le_enc n v : blen (le_enc n v) = Z.of_nat n.
Proof.
  revert v. induction n as [|n IH]; intros v; cbn [le_enc]; [reflexivity|].
  rewrite blen_cons, IH. lia.
Qed.

Lemma blen_map {A B} (f : A -> B) l : blen (map f l) = blen l.
Proof. unfold blen. rewrite map_length. reflexivity. Qed.

Lemma blen_0_nil {A} (l : list A) : blen l = 0 -> l = [].
Proof. destruct l; [reflexivity|]. rewrite blen_cons. pose proof (blen_nonneg l). lia. Qed.

Lemma fsize_pos f : 1 <= fsize f <= 8.
Proof. destruct f; cbn; lia. Qed.

Lemma blen_fenc f v : blen (fenc f v) = fsize f.
Proof. unfold fenc. rewrite blen_le_enc. pose proof (fsize_pos f). lia. Qed.

(** ** extensionality: byte strings are equal when all bytes are *)

Lemma getb_app a b i :
  0 <= i -> getb (a ++ b) i = if i <? blen a then getb a i else getb b (i - blen a).
Proof.
  intros Hi. unfold getb, blen. destruct (i <? Z.of_nat (length a)) eqn:E.
  - apply app_nth1. lia.
  - rewrite app_nth2 by lia. f_equal. lia.
Qed.

Lemma getb_app1 a b i : 0 <= i < blen a -> getb (a ++ b) i = getb a i.
Proof. intros. rewrite getb_app by lia. destruct (i <? blen a) eqn:E; [reflexivity|lia]. Qed.

Lemma getb_app2 a b i : blen a <= i -> getb (a ++ b) i = getb b (i - blen a).
Proof.
  intros. rewrite getb_app by (pose proof (blen_nonneg a); lia).
  destruct (i <? blen a) eqn:E; [lia|reflexivity].
Qed.

Lemma nth_firstn {A} (l : list A) n i d :
  (i < n)%nat -> nth i (firstn n l) d = nth i l d.
Proof.
  revert n l. induction i as [|i IH]; intros n l H; destruct n as [|n]; try lia;
    destruct l as [|x l]; cbn; try reflexivity.
  apply IH. lia.
Qed.

Lemma nth_skipn {A} (l : list A) n i d :
  nth i (skipn n l) d = nth (n + i) l d.
Proof.
  revert l. induction n as [|n IH]; intros l; [reflexivity|].
  destruct l as [|x l]; cbn; [destruct i; reflexivity|]. apply IH.
Qed.

Lemma getb_sub l i n k :
  0 <= i -> 0 <= k < n -> getb (sub l i n) k = getb l (i + k).
Proof.
  intros. unfold getb, sub. rewrite nth_firstn by lia. rewrite nth_skipn.
  f_equal. lia.
Qed.

Lemma getb_upd l i bs k :
  0 <= i -> 0 <= k -> i + blen bs <= blen l ->
  getb (upd l i bs) k =
    if (i <=? k) && (k <? i + blen bs) then getb bs (k - i) else getb l k.
Proof.
  intros Hi Hk Hb. unfold upd.
  pose proof (blen_nonneg bs) as Hn.
  assert (Hf : blen (firstn (Z.to_nat i) l) = i) by (rewrite blen_firstn; lia).
  rewrite getb_app by lia. rewrite Hf.
  destruct (k <? i) eqn:E1.
  - unfold getb. rewrite nth_firstn by lia.
    destruct ((i <=? k) && (k <? i + blen bs)) eqn:E2; [lia|reflexivity].
  - rewrite getb_app by lia.
    destruct (k - i <? blen bs) eqn:E2.
    + destruct ((i <=? k) && (k <? i + blen bs)) eqn:E3; [reflexivity|lia].
    + destruct ((i <=? k) && (k <? i + blen bs)) eqn:E3; [lia|].
      unfold getb. rewrite nth_skipn. f_equal. lia.
Qed.

Lemma getb_zeros n k : getb (zeros n) k = x00.
Proof. unfold getb, zeros. apply nth_repeat. Qed.

Lemma getb_cons b l k :
  0 <= k -> getb (b :: l) k = if k =? 0 then b else getb l (k - 1).
Proof.
  intros. unfold getb. destruct (k =? 0) eqn:E.
  - replace k with 0 by lia. reflexivity.
  - replace (Z.to_nat k) with (S (Z.to_nat (k - 1))) by lia. reflexivity.
Qed.

Lemma getb_out l k : blen l <= k -> getb l k = x00.
Proof. intros. unfold getb. apply nth_overflow. unfold blen in *. lia. Qed.

Lemma bytes_ext (a b : bytes) :
  blen a = blen b ->
  (forall i, 0 <= i < blen a -> getb a i = getb b i) -> a = b.
Proof.
  intros Hl H. apply nth_ext with (d := x00) (d' := x00).
  - unfold blen in Hl. lia.
  - intros n Hn. specialize (H (Z.of_nat n)).
    unfold getb in H. rewrite Nat2Z.id in H. apply H. unfold blen. lia.
Qed.

(** ** decision procedure for equalities between slices *)

Ltac ifs :=
  repeat match goal with
  | |- context [if ?c then _ else _] => destruct c eqn:?
  | H : context [if ?c then _ else _] |- _ => destruct c eqn:?
  end.

Ltac nonneg :=
  repeat match goal with
  | |- context [blen ?l] =>
      lazymatch goal with
      | _ : 0 <= blen l |- _ => fail
      | _ => let NN := fresh "NN" in pose proof (blen_nonneg l) as NN
      end
  | H : context [blen ?l] |- _ =>
      lazymatch goal with
      | _ : 0 <= blen l |- _ => fail
      | _ => let NN := fresh "NN" in pose proof (blen_nonneg l) as NN
      end
  end.

Ltac zlia := nonneg; lia.

(** rewrite all lengths, side conditions by lia *)
Ltac lens :=
  repeat first
    [ rewrite blen_app
    | match goal with |- context [@blen ?A (@nil ?A)] => rewrite (@blen_nil A) end
    | rewrite blen_cons
    | rewrite blen_le_enc
    | rewrite blen_fenc
    | rewrite blen_zeros by zlia
    | rewrite blen_sub by (lens; zlia)
    | rewrite blen_upd by (lens; zlia)
    | rewrite blen_map ].

(** ** little-endian *)

Lemma le_dec_range l : 0 <= le_dec l < 256 ^ blen l.
Proof.
  induction l as [|b l IH]; cbn [le_dec].
  - change (blen (@nil byte)) with 0. lia.
  - rewrite blen_cons. pose proof (bZ_range b). pose proof (blen_nonneg l).
    rewrite Z.pow_add_r by lia. lia.
Qed.

Lemma le_dec_enc n v : le_dec (le_enc n v) = v mod 256 ^ Z.of_nat n.
Proof.
  revert v. induction n as [|n IH]; intros v; cbn [le_enc le_dec].
  - change (256 ^ Z.of_nat 0) with 1. symmetry. apply Z.mod_1_r.
  - rewrite IH, bZ_Zb.
    replace (Z.of_nat (S n)) with (Z.of_nat n + 1) by lia.
    rewrite Z.pow_add_r by lia. rewrite Z.pow_1_r.
    rewrite (Z.mul_comm (256 ^ Z.of_nat n) 256).
    rewrite Z.rem_mul_r by (try apply Z.pow_nonzero; lia).
    reflexivity.
Qed.

Lemma le_enc_dec l : le_enc (length l) (le_dec l) = l.
Proof.
  induction l as [|b l IH]; cbn [le_enc le_dec length]; [reflexivity|].
  pose proof (bZ_range b). f_equal.
  - rewrite <- (Zb_bZ b) at 2. rewrite <- (Zb_mod (bZ b + 256 * le_dec l)). f_equal.
    lia.
  - replace ((bZ b + 256 * le_dec l) / 256) with (le_dec l) by lia. exact IH.
Qed.

Lemma le_enc_mod n v : le_enc n (v mod 256 ^ Z.of_nat n) = le_enc n v.
Proof.
  rewrite <- le_dec_enc.
  assert (H : length (le_enc n v) = n).
  { pose proof (blen_le_enc n v) as H. unfold blen in H. lia. }
  rewrite <- H at 1. apply le_enc_dec.
Qed.

Lemma le_dec_inj a b : length a = length b -> le_dec a = le_dec b -> a = b.
Proof.
  intros Hl H. rewrite <- (le_enc_dec a), <- (le_enc_dec b), Hl, H. reflexivity.
Qed.

Lemma le_enc_zero n : le_enc n 0 = repeat x00 n.
Proof.
  induction n as [|n IH]; cbn [le_enc repeat]; [reflexivity|].
  rewrite Z.div_0_l by lia. rewrite IH. reflexivity.
Qed.

Lemma le_dec_app a b : le_dec (a ++ b) = le_dec a + 256 ^ blen a * le_dec b.
Proof.
  induction a as [|x a IH]; cbn [app le_dec].
  - change (blen (@nil byte)) with 0. lia.
  - rewrite IH, blen_cons. pose proof (blen_nonneg a).
    rewrite Z.pow_add_r by lia. lia.
Qed.

(** ** signed numbers *)

Lemma to_signed_range bits u :
  0 < bits -> 0 <= u < 2 ^ bits -> - 2 ^ (bits - 1) <= to_signed bits u < 2 ^ (bits - 1).
Proof.
  intros Hb Hu. unfold to_signed.
  assert (E : 2 ^ bits = 2 * 2 ^ (bits - 1)).
  { rewrite <- Z.pow_succ_r by lia. f_equal. lia. }
  destruct (u <? 2 ^ (bits - 1)) eqn:?; lia.
Qed.

Lemma to_signed_mod bits v :
  0 < bits -> - 2 ^ (bits - 1) <= v < 2 ^ (bits - 1) ->
  to_signed bits (v mod 2 ^ bits) = v.
Proof.
  intros Hb Hv. unfold to_signed.
  assert (E : 2 ^ bits = 2 * 2 ^ (bits - 1)).
  { rewrite <- Z.pow_succ_r by lia. f_equal. lia. }
  rewrite E. set (h := 2 ^ (bits - 1)) in *. clearbody h.
  destruct (Z.ltb_spec (v mod (2 * h)) h).
  - destruct (Z.neg_nonneg_cases v).
    + replace v with (v + 2 * h + (-1) * (2 * h)) in H by lia.
      rewrite Z.mod_add, Z.mod_small in H by lia. lia.
    + apply Z.mod_small. lia.
  - destruct (Z.neg_nonneg_cases v).
    + replace v with (v + 2 * h + (-1) * (2 * h)) at 1 by lia.
      rewrite Z.mod_add, Z.mod_small by lia. lia.
    + rewrite Z.mod_small in * by lia. lia.
Qed.

Lemma to_signed_mod_eq bits u :
  0 < bits -> (to_signed bits u) mod 2 ^ bits = u mod 2 ^ bits.
Proof.
  intros. unfold to_signed. destruct (_ <? _); [reflexivity|].
  replace (u - 2 ^ bits) with (u + (-1) * 2 ^ bits) by lia.
  apply Z.mod_add. apply Z.pow_nonzero; lia.
Qed.

(** ** the struct module *)

Lemma fmt_range_cases f v : in_fmt f v -> fmin f <= v <= fmax f.
Proof. exact (fun H => H). Qed.

Lemma in_fmtb_iff f v : in_fmtb f v = true <-> in_fmt f v.
Proof. unfold in_fmtb, in_fmt. lia. Qed.

Lemma fdec_fenc f v : in_fmt f v -> fdec f (fenc f v) = v.
Proof.
  intros H. unfold fdec, fenc. rewrite le_dec_enc.
  rewrite Z2Nat.id by (pose proof (fsize_pos f); lia).
  replace (256 ^ fsize f) with (2 ^ (8 * fsize f))
    by (rewrite Z.pow_mul_r by (pose proof (fsize_pos f); lia); reflexivity).
  unfold in_fmt, fmin, fmax in H.
  destruct (fsigned f).
  - apply to_signed_mod; pose proof (fsize_pos f); lia.
  - apply Z.mod_small. lia.
Qed.

Lemma fdec_range f l : blen l = fsize f -> in_fmt f (fdec f l).
Proof.
  intros Hl. pose proof (le_dec_range l) as H. rewrite Hl in H.
  replace (256 ^ fsize f) with (2 ^ (8 * fsize f)) in H
    by (rewrite Z.pow_mul_r by (pose proof (fsize_pos f); lia); reflexivity).
  unfold in_fmt, fdec, fmin, fmax. destruct (fsigned f).
  - pose proof (to_signed_range (8 * fsize f) (le_dec l)).
    pose proof (fsize_pos f). lia.
  - lia.
Qed.

(** ** slices of slices *)

Ltac bext :=
  apply bytes_ext;
  [ lens; try zlia
  | let i := fresh "i" in let Hi := fresh "Hi" in
    intros i Hi; revert Hi; lens; intros Hi ].

Lemma sub_all {A} (l : list A) : sub l 0 (blen l) = l.
Proof. unfold sub, blen. rewrite Nat2Z.id. apply firstn_all. Qed.

Lemma sub_zero {A} (l : list A) i : sub l i 0 = [].
Proof. reflexivity. Qed.

Lemma sub_sub (l : bytes) i n j m :
  0 <= i -> 0 <= j -> 0 <= m -> j + m <= n -> i + n <= blen l ->
  sub (sub l i n) j m = sub l (i + j) m.
Proof.
  intros. bext.
  rewrite !getb_sub by lia. f_equal. lia.
Qed.

Lemma sub_app1 (a b : bytes) i n :
  0 <= i -> 0 <= n -> i + n <= blen a -> sub (a ++ b) i n = sub a i n.
Proof.
  intros. bext.
  rewrite !getb_sub, getb_app1 by lia. reflexivity.
Qed.

Lemma sub_app2 (a b : bytes) i n :
  blen a <= i -> 0 <= n -> i + n <= blen a + blen b ->
  sub (a ++ b) i n = sub b (i - blen a) n.
Proof.
  intros. bext.
  rewrite !getb_sub, getb_app2 by zlia. f_equal. lia.
Qed.

Lemma sub_app_exact (a b c : bytes) i :
  i = blen a -> sub (a ++ b ++ c) i (blen b) = b.
Proof.
  intros ->. rewrite sub_app2 by (rewrite ?blen_app; zlia).
  rewrite Z.sub_diag, sub_app1 by zlia. apply sub_all.
Qed.

Lemma sub_upd_same (l : bytes) i bs :
  0 <= i -> i + blen bs <= blen l -> sub (upd l i bs) i (blen bs) = bs.
Proof.
  intros. bext.
  rewrite getb_sub, getb_upd by zlia. ifs; [f_equal; lia|lia].
Qed.

Lemma sub_upd_other (l : bytes) i bs j n :
  0 <= i -> i + blen bs <= blen l -> 0 <= j -> 0 <= n -> j + n <= blen l ->
  j + n <= i \/ i + blen bs <= j ->
  sub (upd l i bs) j n = sub l j n.
Proof.
  intros. bext.
  rewrite !getb_sub, getb_upd by zlia. ifs; [lia|reflexivity].
Qed.

Lemma upd_nil (l : bytes) i : 0 <= i <= blen l -> upd l i [] = l.
Proof.
  intros. bext.
  rewrite getb_upd by (lens; zlia). lens. ifs; [lia|reflexivity].
Qed.

Lemma upd_app1 (a b : bytes) i bs :
  0 <= i -> i + blen bs <= blen a -> upd (a ++ b) i bs = upd a i bs ++ b.
Proof.
  intros. bext.
  rewrite getb_upd, !getb_app by (lens; zlia). lens.
  rewrite getb_upd by zlia. ifs; try reflexivity; lia.
Qed.

Lemma upd_app2 (a b : bytes) i bs :
  blen a <= i -> i + blen bs <= blen a + blen b ->
  upd (a ++ b) i bs = a ++ upd b (i - blen a) bs.
Proof.
  intros. bext.
  rewrite getb_upd, !getb_app by (lens; zlia).
  destruct (i0 <? blen a) eqn:?.
  - ifs; try reflexivity; lia.
  - rewrite getb_upd by zlia. ifs; try reflexivity; try lia. f_equal. lia.
Qed.

Lemma upd_exact (a old new c : bytes) :
  blen old = blen new -> upd (a ++ old ++ c) (blen a) new = a ++ new ++ c.
Proof.
  intros. rewrite upd_app2 by (lens; zlia).
  rewrite Z.sub_diag, upd_app1 by zlia. f_equal. f_equal.
  bext.
  rewrite getb_upd by zlia. ifs; [f_equal; lia|lia].
Qed.

Lemma upd_upd_same (l : bytes) i a b :
  0 <= i -> blen a = blen b -> i + blen a <= blen l ->
  upd (upd l i a) i b = upd l i b.
Proof.
  intros. bext.
  rewrite !getb_upd by (lens; zlia). ifs; try reflexivity; lia.
Qed.

Lemma upd_join (l : bytes) i a b :
  0 <= i -> i + blen a + blen b <= blen l ->
  upd (upd l i a) (i + blen a) b = upd l i (a ++ b).
Proof.
  intros. bext.
  rewrite !getb_upd by (lens; zlia). lens.
  ifs; try zlia; try reflexivity;
    rewrite getb_app by lia; ifs; try lia; try reflexivity; f_equal; lia.
Qed.

Lemma upd_comm (l : bytes) i a j b :
  0 <= i -> 0 <= j -> i + blen a <= blen l -> j + blen b <= blen l ->
  i + blen a <= j \/ j + blen b <= i ->
  upd (upd l i a) j b = upd (upd l j b) i a.
Proof.
  intros. bext.
  rewrite !getb_upd by (lens; zlia). ifs; try lia; reflexivity.
Qed.

Lemma upd_self (l : bytes) i n :
  0 <= i -> 0 <= n -> i + n <= blen l -> upd l i (sub l i n) = l.
Proof.
  intros. bext.
  rewrite getb_upd by (lens; zlia). lens. ifs; [|reflexivity].
  rewrite getb_sub by lia. f_equal. lia.
Qed.

Lemma sub_split (l : bytes) i n m :
  0 <= i -> 0 <= n -> 0 <= m -> i + n + m <= blen l ->
  sub l i (n + m) = sub l i n ++ sub l (i + n) m.
Proof.
  intros. bext.
  rewrite getb_sub, getb_app by lia. lens. ifs; rewrite getb_sub by lia; f_equal; lia.
Qed.

Lemma py_slice_in {A} (l : list A) lo hi :
  0 <= lo -> lo <= hi -> hi <= blen l -> py_slice l lo hi = sub l lo (hi - lo).
Proof.
  intros. unfold py_slice, py_bound.
  destruct (lo <? 0) eqn:?; [lia|]. destruct (hi <? 0) eqn:?; [lia|].
  rewrite !Z.min_l by lia. reflexivity.
Qed.

Lemma py_slice_set_in (l : bytes) lo bs :
  0 <= lo -> lo + blen bs <= blen l -> py_slice_set l lo (lo + blen bs) bs = upd l lo bs.
Proof.
  intros. nonneg. unfold py_slice_set, py_bound, upd.
  destruct (lo <? 0) eqn:?; [lia|]. destruct (lo + blen bs <? 0) eqn:?; [lia|].
  rewrite !Z.min_l by lia. rewrite Z.max_r by lia. reflexivity.
Qed.

Lemma zeros_add a b : 0 <= a -> 0 <= b -> zeros (a + b) = zeros a ++ zeros b.
Proof.
  intros. unfold zeros. rewrite Z2Nat.inj_add by lia. apply repeat_app.
Qed.

Lemma sub_zeros n i m : 0 <= i -> 0 <= m -> i + m <= n -> sub (zeros n) i m = zeros m.
Proof.
  intros. bext. rewrite getb_sub by lia. rewrite !getb_zeros. reflexivity.
Qed.

(** ** results *)

Lemma bind_ok {A B} (r : res A) (f : A -> res B) b :
  bind r f = Ok b -> exists a, r = Ok a /\ f a = Ok b.
Proof. destruct r as [a|e]; cbn; intros H; [exists a; auto|discriminate]. Qed.

Lemma pack_into_in f buf i v :
  in_fmt f v -> 0 <= i -> i + fsize f <= blen buf ->
  pack_into f buf i v = Ok (upd buf i (fenc f v)).
Proof.
  intros Hv Hi Hb. unfold pack_into.
  apply in_fmtb_iff in Hv. rewrite Hv. cbn [negb].
  destruct (i <? 0) eqn:?; [lia|].
  destruct ((i <? 0) || (blen buf <? i + fsize f)) eqn:?; [lia|].
  reflexivity.
Qed.

Lemma unpack_from_in f buf i :
  0 <= i -> i + fsize f <= blen buf ->
  unpack_from f buf i = Ok (fdec f (sub buf i (fsize f))).
Proof.
  intros Hi Hb. unfold unpack_from.
  destruct (i <? 0) eqn:?; [lia|].
  destruct ((i <? 0) || (blen buf <? i + fsize f)) eqn:?; [lia|].
  reflexivity.
Qed.

Lemma app_len_inj {A} (a b c d : list A) : blen a = blen c -> a ++ b = c ++ d -> a = c /\ b = d.
Proof.
  revert c. induction a as [|x a IH]; intros [|y c] Hl H; rewrite ?blen_cons in Hl.
  - auto.
  - exfalso. revert Hl. unfold blen. cbn [length]. lia.
  - exfalso. revert Hl. unfold blen. cbn [length]. lia.
  - cbn [app] in H. injection H as -> H. destruct (IH c ltac:(lia) H) as [-> ->]. auto.
Qed.

Lemma ok_inj {A} (a b : A) : Ok a = Ok b -> a = b.
Proof. congruence. Qed.
