(** Property theorems C78: the hexadecimal dump of a buffer (print_buffer,
    BufferPrinter, _print_buf). [shows] (PrinterSpec.v) says what a line,
    without its colours, tells about a word: address, bytes, ASCII, pointer,
    double, integer. [C], [FT]: the colours and the texts of doubles. *)
From Coq Require Import Strings.String.
From Verif Require Import Base BaseFacts Spec Ptr PtrFacts Segment Builder Struct List Case Loader Repr ReprSpec ReprParse
  Printer PrinterSpec PrinterFacts Samples.
From Coq Require Import Lists.List.
Local Notation length := Datatypes.length.

(** The words of the buffer, from number [i] on *)
Definition word_bytes (buf : bytes) (i : Z) : bytes := sub buf (8 * i) 8.

Lemma words_ok C FT n buf : colours_ok C n -> floats_ok FT -> forall k i, 0 <= i -> 8 * (i + Z.of_nat k) <= blen buf ->
  exists l, words C FT true buf i k = Ok l /\ length l = k /\
    forall j ch s, nth_error l j = Some (ch, s) -> ch = Stream /\
      shows (8 - n) (ft_str FT) (ft_exp FT) (8 * (i + Z.of_nat j)) (word_bytes buf (i + Z.of_nat j)) (plain s).
Proof.
  intros CO FO. induction k as [|k IH]; intros i P B.
  - exists []. split; [reflexivity|]. split; [reflexivity|]. intros [|j] ch s; discriminate.
  - destruct (IH (i + 1)) as (r & E & L & H); [lia|lia|]. cbn [words].
    assert (W : py_slice buf (i * 8) (i * 8 + 8) = word_bytes buf i).
    { rewrite py_slice_in by lia. unfold word_bytes. f_equal; lia. }
    assert (W8 : blen (word_bytes buf i) = 8) by (unfold word_bytes; rewrite blen_sub; lia).
    rewrite W. destruct (line_ok C FT n CO FO (i * 8) (word_bytes buf i) W8) as (s & S1 & S2). rewrite S1. cbn [bind]. rewrite E. cbn [bind].
    eexists. split; [reflexivity|]. split; [cbn [length]; lia|]. intros [|j] ch t N; cbn [nth_error] in N.
    + injection N as <- <-. split; [reflexivity|]. replace (i + Z.of_nat 0) with i by lia. replace (8 * i) with (i * 8) by lia. exact S2.
    + destruct (H j ch t N) as (A & Q). split; [exact A|]. replace (i + Z.of_nat (S j)) with (i + 1 + Z.of_nat j) by lia. exact Q.
Qed.

(** One line for each whole word of the range, in order, on the stream; the
    header always goes to stdout *)
Theorem C78_lines : forall C FT n buf start end_, colours_ok C n -> floats_ok FT ->
  let e := match end_ with Some e => e | None => blen buf end in
  0 <= start -> start <= e -> e <= blen buf ->
  exists head lines, printbuf C FT buf start end_ true = Ok ((Stdout, head) :: lines) /\
    Z.of_nat (length lines) = e / 8 - start / 8 /\
    forall k ch s, nth_error lines k = Some (ch, s) ->
      ch = Stream /\
      let i := start / 8 + Z.of_nat k in
      shows (8 - n) (ft_str FT) (ft_exp FT) (8 * i) (word_bytes buf i) (plain s).
Proof.
  intros C FT n buf start end_ CO FO e S E B. unfold printbuf. fold e.
  destruct (words_ok C FT n buf CO FO (Z.to_nat (e / 8 - start / 8)) (start / 8)) as (l & W & L & H); [lia|lia|].
  rewrite W. cbn [bind app]. eexists _, l. split; [reflexivity|]. split; [lia|]. exact H.
Qed.
Print Assumptions C78_lines.

(** ** A line says which word it is *)
Lemma decimal_chars z s : decimal z s -> s <> [] /\ Forall (fun c => c = 45 \/ digit c = true) s.
Proof.
  unfold decimal, int_lit. assert (SP : forall t a b, span digit t = (a, b) -> t = a ++ b /\ Forall (fun c => digit c = true) a).
  { induction t as [|c t IH]; cbn [span]; intros a b E; [injection E as <- <-; auto|].
    destruct (digit c) eqn:D.
    - destruct (span digit t) as (x, y). injection E as <- <-. destruct (IH x y eq_refl) as (-> & F). auto.
    - injection E as <- <-. auto. }
  destruct s as [|c s]; [discriminate|].
  destruct (c =? 45) eqn:M.
  - cbn [tl]. destruct (span digit s) as (a, b) eqn:E. destruct (SP _ _ _ E) as (-> & F). destruct a; [discriminate|].
    intros X. injection X as _ ->. split; [discriminate|]. constructor; [left; lia|]. rewrite app_nil_r.
    eapply Forall_impl; [|exact F]. intros; now right.
  - destruct (span digit (c :: s)) as (a, b) eqn:E. destruct (SP _ _ _ E) as (Q & F). rewrite Q. destruct a; [discriminate|].
    intros X. injection X as _ ->. split; [discriminate|]. rewrite app_nil_r. eapply Forall_impl; [|exact F]. intros; now right.
Qed.
Lemma decimal_fun z z' s : decimal z s -> decimal z' s -> z = z'.
Proof. unfold decimal. congruence. Qed.
Lemma pad_inj k k' s s' : (exists c r, s = c :: r /\ c <> 32) -> (exists c r, s' = c :: r /\ c <> 32) ->
  repeat 32 k ++ s = repeat 32 k' ++ s' -> s = s'.
Proof.
  intros (c & r & -> & N) (c' & r' & -> & N'). revert k'. induction k as [|k IH]; intros [|k']; cbn [repeat app]; intros E.
  - exact E.
  - injection E as -> _. congruence.
  - injection E as E1 _. congruence.
  - injection E as E.
    exact (IH k' E).
Qed.
Lemma colon_inj a b s t : ~ In 58 a -> ~ In 58 b -> a ++ 58 :: s = b ++ 58 :: t -> a = b /\ s = t.
Proof.
  revert b. induction a as [|c a IH]; intros [|d b] A B E; cbn [app] in E.
  - injection E as <-. auto.
  - injection E as X _. exfalso. apply B. left. congruence.
  - injection E as X _. exfalso. apply A. left. congruence.
  - injection E as <- E. destruct (IH b) as (-> & ->); [intros J; apply A; now right|intros J; apply B; now right|exact E|]. auto.
Qed.
Lemma hex_len w h : hex_words w h -> Z.of_nat (length h) = 3 * blen w - 1.
Proof.
  induction 1 as [b s H|b s w t H _ IH]; unfold hex_of in H; subst s; [reflexivity|].
  rewrite !app_length. unfold blen in *. cbn [length] in *. lia.
Qed.
Lemma hex_nth_inj a b : 0 <= a < 16 -> 0 <= b < 16 -> nth (Z.to_nat a) hex_digits 0 = nth (Z.to_nat b) hex_digits 0 -> a = b.
Proof.
  assert (H : forallb (fun x => forallb (fun y => negb (nth x hex_digits 0 =? nth y hex_digits 0) || (x =? y)%nat) (seq 0 16)) (seq 0 16) = true)
    by (vm_compute; reflexivity).
  intros A B E. rewrite forallb_forall in H. specialize (H (Z.to_nat a) ltac:(apply in_seq; lia)). cbv beta in H.
  rewrite forallb_forall in H. specialize (H (Z.to_nat b) ltac:(apply in_seq; lia)). cbv beta in H. rewrite E, Z.eqb_refl in H. cbn [negb orb] in H.
  apply Nat.eqb_eq in H. lia.
Qed.
Lemma hex_of_inj b b' s : hex_of b s -> hex_of b' s -> b = b'.
Proof.
  unfold hex_of. intros -> E. injection E as E1 E2. pose proof (bZ_range b). pose proof (bZ_range b').
  apply hex_nth_inj in E1; [|lia|lia]. apply hex_nth_inj in E2; [|lia|lia]. apply bZ_inj. lia.
Qed.
Lemma hex_inj w h : hex_words w h -> forall w', hex_words w' h -> w = w'.
Proof.
  induction 1 as [b s H|b s w t H H2 IH]; intros w' W; inversion W as [b' s' H'|b' s' w2 t' H' W2]; subst.
  - now rewrite (hex_of_inj _ _ _ H H').
  - unfold hex_of in H, H'. subst s'. discriminate.
  - unfold hex_of in H, H'. subst s. discriminate.
  - assert (Q : forall x y x' y' u u' : str, x ++ [32] ++ u = y ++ [32] ++ u' -> length x = 2%nat -> length y = 2%nat -> x = y /\ u = u').
    { clear. intros x y _ _ u u' E X Y. destruct x as [|x1 [|x2 [|]]], y as [|y1 [|y2 [|]]]; try discriminate.
      cbn [app] in E. injection E as -> -> ->. auto. }
    match goal with E : _ ++ _ = _ ++ _ |- _ => apply (Q _ _ s s) in E as (-> & ->) end;
      [|unfold hex_of in H, H'; subst; reflexivity|unfold hex_of in H, H'; subst; reflexivity].
    rewrite (hex_of_inj _ _ _ H H'). f_equal. now apply IH.
Qed.

Theorem C78_unambiguous : forall width f g pos w pos' w' s, blen w = 8 -> blen w' = 8 ->
  shows width f g pos w s -> shows width f g pos' w' s -> pos = pos' /\ w = w'.
Proof.
  intros width f g pos w pos' w' s L L' (a & a1 & h & p & x & i & E & D & R & H & _) (b & b1 & h' & p' & x' & i' & E' & D' & R' & H' & _).
  rewrite E in E'. clear E s. unfold right in R, R'. subst a1 b1.
  assert (N : forall z t k, decimal z t -> ~ In 58 (repeat 32 k ++ t) /\ exists c r, t = c :: r /\ c <> 32).
  { intros z t k T. destruct (decimal_chars z t T) as (T1 & T2). split.
    - intros J. apply in_app_or in J as [J|J]; [apply repeat_spec in J; discriminate|].
      rewrite Forall_forall in T2. specialize (T2 _ J). unfold digit in T2. lia.
    - destruct t as [|c r]; [congruence|]. exists c, r. split; [reflexivity|]. inversion T2; subst. unfold digit in *. lia. }
  destruct (N _ _ (width - length a)%nat D) as (N1 & N2). destruct (N _ _ (width - length b)%nat D') as (N1' & N2').
  change (lit ":  ") with (58 :: [32; 32]) in E'. cbn [app] in E'.
  apply colon_inj in E' as (EA & E'); [|exact N1|exact N1'].
  apply (pad_inj _ _ _ _ N2 N2') in EA. subst b. split; [exact (decimal_fun _ _ _ D D')|].
  injection E' as E'. pose proof (hex_len _ _ H) as LH. pose proof (hex_len _ _ H') as LH'. rewrite L in LH. rewrite L' in LH'.
  assert (h = h').
  { assert (Q : length h = length h') by lia. clear -E' Q. revert h' E' Q.
    induction h as [|c h IH]; intros [|c' h'] E Q; try discriminate Q; [reflexivity|].
    cbn [app] in E. injection E as -> E. f_equal. apply IH; [exact E|]. cbn [length] in Q. lia. }
  subst h'. exact (hex_inj w h H w' H').
Qed.
Print Assumptions C78_unambiguous.

Lemma by_words (a b : bytes) : forall n, blen a = 8 * Z.of_nat n -> blen b = 8 * Z.of_nat n ->
  (forall i, 0 <= i < Z.of_nat n -> word_bytes a i = word_bytes b i) -> a = b.
Proof.
  intros n. revert a b. induction n as [|n IH]; intros a b A B H.
  - unfold blen in *. destruct a, b; try (cbn in *; lia). reflexivity.
  - assert (Q : firstn 8 a = firstn 8 b) by (specialize (H 0 ltac:(lia)); unfold word_bytes, sub in H; exact H).
    rewrite <- (firstn_skipn 8 a), <- (firstn_skipn 8 b). f_equal; [exact Q|]. apply IH.
    + unfold blen in *. rewrite skipn_length. lia.
    + unfold blen in *. rewrite skipn_length. lia.
    + intros i I. specialize (H (i + 1) ltac:(lia)). unfold word_bytes, sub in *. 
      replace (Z.to_nat (8 * (i + 1))) with (8 + Z.to_nat (8 * i))%nat in H by lia.
      assert (Q2 : forall l : bytes, skipn (8 + Z.to_nat (8 * i)) l = skipn (Z.to_nat (8 * i)) (skipn 8 l))
        by (intros l; do 8 (destruct l; [now rewrite !skipn_nil|]); reflexivity).
      rewrite !Q2 in H. exact H.
Qed.

(** So the dump of a buffer of whole words is all of the buffer *)
Theorem C78_faithful : forall C FT n buf buf' out, colours_ok C n -> floats_ok FT ->
  blen buf mod 8 = 0 -> blen buf' mod 8 = 0 ->
  print_buffer C FT buf true = Ok out -> print_buffer C FT buf' true = Ok out -> buf = buf'.
Proof.
  intros C FT n buf buf' out CO FO M M' E E'. pose proof (blen_nonneg buf) as P. pose proof (blen_nonneg buf') as P'.
  destruct (C78_lines C FT n buf 0 None CO FO) as (hd & l & X & L & H); [lia|lia|lia|].
  destruct (C78_lines C FT n buf' 0 None CO FO) as (hd' & l' & X' & L' & H'); [lia|lia|lia|].
  unfold print_buffer in *. rewrite X in E. rewrite X' in E'. rewrite <- E in E'. apply ok_inj in E'. injection E' as _ ->.
  change (0 / 8) with 0 in *. rewrite Z.sub_0_r in *.
  apply (by_words _ _ (length l)); [lia|lia|]. intros i I.
  destruct (nth_error l (Z.to_nat i)) as [(ch, s)|] eqn:N; [|apply nth_error_None in N; lia].
  destruct (H _ _ _ N) as (_ & A). destruct (H' _ _ _ N) as (_ & B). cbv zeta in A, B. rewrite Z2Nat.id in A, B by lia. rewrite Z.add_0_l in A, B.
  assert (W : blen (word_bytes buf i) = 8) by (clear -L I M P; unfold word_bytes; rewrite blen_sub; lia).
  assert (W' : blen (word_bytes buf' i) = 8) by (clear -L' I M' P'; unfold word_bytes; rewrite blen_sub; lia).
  destruct (C78_unambiguous _ _ _ _ _ _ _ _ W W' A B) as (_ & Q).
  exact Q.
Qed.
Print Assumptions C78_faithful.

(** ** What is not printed *)
Lemma line_short C FT pos w : blen w <> 8 -> line C FT pos w = Err StructError.
Proof. intros N. unfold line, int64_col, unpack8. apply Z.eqb_neq in N. rewrite N. reflexivity. Qed.

(** A range that ends after the buffer is an error *)
Theorem C78_out_of_range : forall C FT buf start e, 0 <= start -> blen buf / 8 < e / 8 -> start / 8 < e / 8 ->
  printbuf C FT buf start (Some e) true = Err StructError.
Proof.
  intros C FT buf start e P B S. unfold printbuf. set (i := start / 8). set (k := Z.to_nat (e / 8 - i)).
  assert (Q : words C FT true buf i k = Err StructError); [|rewrite Q; reflexivity].
  assert (I : 0 <= i) by (unfold i; lia). assert (K : 0 < Z.of_nat k /\ blen buf < 8 * (i + Z.of_nat k)) by (unfold k, i; lia).
  clearbody i k. clear S P B start e. revert i I K. induction k as [|k IH]; intros i I (K1 & K2); [lia|]. cbn [words].
  destruct (Z_lt_le_dec (blen buf) (8 * (i + 1))) as [Z0|Z0].
  - rewrite line_short; [reflexivity|]. pose proof (blen_nonneg buf). unfold py_slice, py_bound.
    replace (i * 8 <? 0) with false by (symmetry; lia). replace (i * 8 + 8 <? 0) with false by (symmetry; lia).
    unfold sub, blen in *. rewrite firstn_length, skipn_length. lia.
  - destruct (line C FT (i * 8) (py_slice buf (i * 8) (i * 8 + 8))) as [s|x] eqn:E.
    + cbn [bind]. rewrite (IH (i + 1)) by lia. reflexivity.
    + revert E. unfold line, int64_col, float64_col, ptr_col, unpack8. destruct (blen (py_slice buf (i * 8) (i * 8 + 8)) =? 8); cbn [bind].
      * destruct (negb _); [discriminate|]. destruct (_ =? 0); discriminate.
      * intros E. injection E as <-. reflexivity.
Qed.
Print Assumptions C78_out_of_range.

(** On Python 3 the format for machines (human=False) does not work at all *)
Theorem C78_not_human : forall C FT buf start e, 0 <= start -> start / 8 < e / 8 -> start < blen buf ->
  printbuf C FT buf start (Some e) false = Err AttributeError.
Proof.
  intros C FT buf start e P S B. unfold printbuf. destruct (Z.to_nat (e / 8 - start / 8)) as [|k] eqn:K; [lia|]. cbn [words].
  assert (N : py_slice buf (start / 8 * 8) (start / 8 * 8 + 8) <> []).
  { intros E. apply (f_equal (@blen byte)) in E. revert E. unfold py_slice, py_bound.
    replace (start / 8 * 8 <? 0) with false by (symmetry; lia). replace (start / 8 * 8 + 8 <? 0) with false by (symmetry; lia).
    unfold sub, blen in *. rewrite firstn_length, skipn_length. cbn [length]. lia. }
  destruct (py_slice _ _ _) as [|b w]; [congruence|]. reflexivity.
Qed.
Print Assumptions C78_not_human.

(** ** _print_buf() of a struct: the words of the object, if it is compact
    ([o_get_end] is -1 if it is not, C22); otherwise only the header *)
Theorem C78_object : forall C FT n fuel o e, colours_ok C n -> floats_ok FT ->
  0 <= o_off o -> o_get_end fuel o = Ok e -> o_off o <= e -> e <= blen (sbuf (o_seg o)) ->
  exists head lines, print_buf C FT fuel o None None true = Ok ((Stdout, head) :: lines) /\
    Z.of_nat (length lines) = e / 8 - o_off o / 8 /\
    forall k ch s, nth_error lines k = Some (ch, s) ->
      ch = Stream /\
      let i := o_off o / 8 + Z.of_nat k in
      shows (8 - n) (ft_str FT) (ft_exp FT) (8 * i) (word_bytes (sbuf (o_seg o)) i) (plain s).
Proof.
  intros C FT n fuel o e CO FO P G A B. unfold print_buf. rewrite G. cbn [bind].
  exact (C78_lines C FT n (sbuf (o_seg o)) (o_off o) (Some e) CO FO P A B).
Qed.
Print Assumptions C78_object.
Theorem C78_not_compact : forall C FT fuel o, 0 <= o_off o -> o_is_compact fuel o = Ok false ->
  exists head, print_buf C FT fuel o None None true = Ok [(Stdout, head)].
Proof.
  intros C FT fuel o P E. unfold o_is_compact in E. unfold print_buf. destruct (o_get_end fuel o) as [e|]; [|discriminate]. cbn [bind] in *.
  apply ok_inj in E. assert (e = -1) as -> by (destruct (Z.eqb_spec e (-1)); [assumption|discriminate]).
  unfold printbuf. replace (Z.to_nat (-1 / 8 - o_off o / 8)) with 0%nat by lia. cbn [words bind app]. eauto.
Qed.
Print Assumptions C78_not_compact.

(** ** Examples *)
Definition C0 : colours := mkcolours (fun i => [51; 49 + i]) [51; 55] [51; 51; 59; 48; 49].
Definition FT0 : float_texts := mkft dec (fun _ => lit "0.00E+00 ").
Example C78_colours : colours_ok C0 2 /\ floats_ok FT0.
Proof.
  split.
  - split; [|split; (repeat (apply Forall_cons || apply Forall_nil)); first [left; reflexivity|right; reflexivity]].
    intros i H. cbn [c_addr C0]. split; [|reflexivity].
    apply Forall_cons; [left; reflexivity|]. apply Forall_cons; [left; unfold digit; lia|apply Forall_nil].
  - intros v. split; [apply no_esc_dec|]. vm_compute. repeat (apply Forall_cons; [discriminate|]). apply Forall_nil.
Qed.
(** a struct pointer, a list pointer, text, a word that is no pointer *)
Definition buf0 : bytes := le_enc 8 (w_struct 0 2 1) ++ le_enc 8 (w_list (-2) 2 6) ++ map Zb (lit "hello") ++ zeros 3 ++ le_enc 8 7.
Definition seen (buf : bytes) : list str := match print_buffer C0 FT0 buf true with Ok l => map (fun x => plain (snd x)) l | Err _ => [] end.
Example C78_ex : seen buf0 = map lit
  ["Offset   Hex view                 ASCII     Pointer                     float64  int64";
   "     0:  00 00 00 00 02 00 01 00  ........  struct    2   1 to 8      0.00E+00   281483566645248";
   "     8:  F9 FF FF FF 32 00 00 00  ....2...  list<8>       6 to 0      0.00E+00   219043332089";
   "    16:  68 65 6C 6C 6F 00 00 00  hello...  struct    ?   0 to ?      0.00E+00   478560413032";
   "    24:  07 00 00 00 00 00 00 00  ........                                    7  7"]%string.
Proof. vm_compute. reflexivity. Qed.
(** The address shown for a far pointer means nothing: it is computed as if
    the offset of the landing pad were that of a struct pointer. Here the
    landing pad is at byte 24 of segment 1 *)
Example C78_far_address : tl (seen (le_enc 8 (w_far 0 3 1))) = map lit
  ["     0:  1A 00 00 00 01 00 00 00  ........  far       0   1 to 56     0.00E+00   4294967322"]%string.
Proof. vm_compute. reflexivity. Qed.
(** The hypotheses of C78_object, for the root of Samples.v, and those of
    C78_not_compact, for the same data with the pointers in the other order *)
Definition o1 : obj := mkobj {| sbuf := sample1; soffs := None |} 8 16 1 2.
Definition o2 : obj := mkobj {| sbuf := le_enc 8 (w_struct 0 1 2) ++ le_enc 8 42 ++
  le_enc 8 (w_list 2 2 4) ++ le_enc 8 (w_struct 0 1 0) ++ le_enc 8 7 ++ text_abc; soffs := None |} 8 16 1 2.
Example C78_object_ex : o_get_end 9 o1 = Ok 48 /\ blen (sbuf (o_seg o1)) = 48 /\ o_is_compact 9 o2 = Ok false.
Proof. vm_compute. auto. Qed.
