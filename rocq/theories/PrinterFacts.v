(** The lines of Printer.v, without their colours, are those of PrinterSpec.v *)
From Coq Require Import Strings.String.
From Verif Require Import Base BaseFacts Spec Ptr PtrFacts PtrFinal Segment Builder Struct List Case Loader Repr ReprSpec ReprParse Printer PrinterSpec.
From Coq Require Import Lists.List.
Local Notation length := Datatypes.length.

(** ** Colours *)

(** An ANSI code: digits and semicolons *)
Definition ansi (c : str) : Prop := Forall (fun x => digit x = true \/ x = 59) c.
(** addresses: codes of the same length [n] (2 in pypytools). Addresses are
    aligned to 16 characters, of which [n] + 8 are part of the escapes *)
Definition colours_ok (C : colours) (n : nat) : Prop :=
  (forall i, 0 <= i < 6 -> ansi (c_addr C i) /\ length (c_addr C i) = n) /\ ansi (c_gray C) /\ ansi (c_yellow C).
Definition no_esc (s : str) : Prop := Forall (fun c => c <> 27) s.
Definition floats_ok (FT : float_texts) : Prop := forall v, no_esc (ft_str FT v) /\ no_esc (ft_exp FT v).

Fixpoint inside (b : bool) (s : str) : bool :=
  match s with
  | [] => b
  | c :: r => inside (if b then negb (c =? 109) else c =? 27) r
  end.
Lemma plain_app b s t : plain_from b (s ++ t) = plain_from b s ++ plain_from (inside b s) t.
Proof.
  revert b. induction s as [|c s IH]; intros b; [reflexivity|]. cbn [app plain_from inside]. destruct b; [apply IH|].
  destruct (c =? 27); [apply IH|]. cbn [app]. now rewrite IH.
Qed.
Lemma inside_app b s t : inside b (s ++ t) = inside (inside b s) t.
Proof. revert b. induction s as [|c s IH]; intros b; [reflexivity|]. cbn [app inside]. apply IH. Qed.

(** [s] looks like [t] *)
Definition vis (s t : str) : Prop := plain s = t /\ inside false s = false.
Lemma vis_app s t s' t' : vis s s' -> vis t t' -> vis (s ++ t) (s' ++ t').
Proof.
  intros (A & B) (E & F). split.
  - unfold plain. rewrite plain_app, B. now rewrite <- A, <- E.
  - now rewrite inside_app, B.
Qed.
Lemma vis_self s : no_esc s -> vis s s.
Proof.
  induction 1 as [|c s N H (A & B)]; [split; reflexivity|]. unfold vis, plain in *. cbn [plain_from inside].
  apply Z.eqb_neq in N. rewrite N. split; [now rewrite A|exact B].
Qed.
Lemma skip_code c s : ansi c -> plain_from true (c ++ 109 :: s) = plain_from false s /\ inside true (c ++ 109 :: s) = inside false s.
Proof.
  induction 1 as [|x c N H IH]; [split; reflexivity|]. cbn [app plain_from inside].
  replace (x =? 109) with false; [exact IH|]. symmetry. apply Z.eqb_neq. unfold digit in N. lia.
Qed.
Lemma vis_set c s t : ansi c -> vis s t -> vis (set_color c s) t.
Proof.
  intros H (A & B). unfold set_color, vis, plain in *.
  change ([27; 91] ++ c ++ [109] ++ s ++ [27; 91; 48; 48; 109]) with (27 :: 91 :: (c ++ 109 :: (s ++ [27; 91; 48; 48; 109]))).
  destruct (skip_code c (s ++ [27; 91; 48; 48; 109]) H) as (P & Q). cbn [plain_from inside].
  change (27 =? 27) with true. change (91 =? 109) with false. cbn [negb]. rewrite P, Q. rewrite plain_app, inside_app, B.
  split; [|reflexivity]. rewrite A. apply app_nil_r.
Qed.
Lemma no_esc_app s t : no_esc s -> no_esc t -> no_esc (s ++ t).
Proof. intros A B. apply Forall_app. auto. Qed.
Lemma no_esc_spaces n : no_esc (spaces n).
Proof. unfold spaces. induction (Z.to_nat n); cbn [repeat]; constructor; [lia|assumption]. Qed.
Lemma no_esc_digits s : forallb digit s = true -> no_esc s.
Proof. rewrite forallb_forall. intros H. apply Forall_forall. intros x J. specialize (H x J). unfold digit in H. lia. Qed.
Lemma no_esc_dec z : no_esc (dec z).
Proof.
  unfold dec. destruct (Z.ltb_spec z 0).
  - constructor; [lia|]. apply no_esc_digits. apply dec_nat_spec. lia.
  - apply no_esc_digits. apply dec_nat_spec. lia.
Qed.

Ltac lit_ok := apply vis_self; vm_compute; repeat constructor; discriminate.

(** ** Columns *)
Lemma right_rjust n s : right n s (rjust (Z.of_nat n) s).
Proof. unfold right, rjust, spaces, blen. f_equal. f_equal. lia. Qed.
Lemma left_ljust n s : left n s (ljust (Z.of_nat n) s).
Proof. unfold left, ljust, spaces, blen. f_equal. f_equal. lia. Qed.
Lemma decimal_dec z : decimal z (dec z).
Proof. unfold decimal. rewrite <- (app_nil_r (dec z)) at 1. apply int_lit_dec. exact Logic.I. Qed.
Lemma vis_rjust n s : no_esc s -> vis (rjust n s) (rjust n s).
Proof. intros H. apply vis_self. apply no_esc_app; [apply no_esc_spaces|exact H]. Qed.
Lemma vis_ljust n s : no_esc s -> vis (ljust n s) (ljust n s).
Proof. intros H. apply vis_self. apply no_esc_app; [exact H|apply no_esc_spaces]. Qed.

Section columns.
  Variables (C : colours) (FT : float_texts) (n : nat).
  Hypothesis CO : colours_ok C n.
  Hypothesis FO : floats_ok FT.

  Lemma hex_digit_nth z : 0 <= z < 16 -> hex_digit z = nth (Z.to_nat z) hex_digits 0 /\ hex_digit z <> 27.
  Proof.
    assert (H : forallb (fun k => (hex_digit (Z.of_nat k) =? nth k hex_digits 0) && negb (hex_digit (Z.of_nat k) =? 27)) (seq 0 16) = true)
      by (vm_compute; reflexivity).
    intros N. rewrite forallb_forall in H. specialize (H (Z.to_nat z) ltac:(apply in_seq; lia)). rewrite Z2Nat.id in H by lia.
    apply andb_prop in H as (A & B). lia.
  Qed.
  Lemma hex_byte_ok b : exists s, vis (hex_byte C b) s /\ hex_of b s.
  Proof.
    pose proof (bZ_range b) as R. eexists. split; [|reflexivity]. unfold hex_byte.
    destruct (Z.eqb_spec (bZ b) 0) as [->|N].
    - apply vis_set; [apply CO|]. lit_ok.
    - destruct (hex_digit_nth (bZ b / 16)) as (<- & A); [lia|]. destruct (hex_digit_nth (bZ b mod 16)) as (<- & B); [lia|].
      apply vis_self. repeat constructor; assumption.
  Qed.
  Lemma hex_ok w : w <> [] -> exists s, vis (hex_col C w) s /\ hex_words w s.
  Proof.
    unfold hex_col. induction w as [|b w IH]; [congruence|]. intros _. destruct (hex_byte_ok b) as (s & V & H).
    destruct w as [|b' w].
    - exists s. split; [exact V|now constructor].
    - destruct IH as (t & V' & H'); [discriminate|]. exists (s ++ [32] ++ t). split; [|now constructor].
      change (join_with (lit " ") (map (hex_byte C) (b :: b' :: w)))
        with (hex_byte C b ++ lit " " ++ join_with (lit " ") (map (hex_byte C) (b' :: w))).
      apply vis_app; [exact V|]. apply vis_app; [lit_ok|exact V'].
  Qed.
  Lemma string_ok w : vis (string_col C w) (map char_of w) /\ (length w <= length (string_col C w))%nat.
  Proof.
    unfold string_col. induction w as [|b w (IH & L)]; [split; [split; reflexivity|cbn; lia]|]. cbn [flat_map map].
    change (char_of b :: map char_of w) with ([char_of b] ++ map char_of w). rewrite app_length.
    pose proof (bZ_range b) as R. assert (Q : char_of b = if (32 <=? bZ b) && (bZ b <=? 127) then bZ b else 46)
      by (unfold char_of; destruct (Z.ltb_spec (bZ b) 128), (Z.leb_spec (bZ b) 127); try lia; reflexivity). rewrite Q. clear Q.
    destruct ((32 <=? bZ b) && (bZ b <=? 127)) eqn:E.
    - split; [|cbn [length]; lia]. apply vis_app; [|exact IH]. apply vis_self. constructor; [lia|constructor].
    - assert (Q : (1 <= length (set_color (c_gray C) (lit ".")))%nat) by (unfold set_color; rewrite app_length; cbn [length]; lia).
      split; [|cbn [length]; lia]. apply vis_app; [|exact IH].
      apply vis_set; [apply CO|]. lit_ok.
  Qed.

  Lemma addr_ok x : vis (addr C x) (dec x) /\ length (addr C x) = (8 + n + length (dec x))%nat.
  Proof.
    destruct CO as (A & _). destruct (A ((x / 8) mod 6) (Z.mod_pos_bound _ 6 eq_refl)) as (B & L). unfold addr. split.
    - apply vis_set; [exact B|]. apply vis_self. apply no_esc_dec.
    - unfold set_color. rewrite !app_length, L. cbn [length]. lia.
  Qed.
  Lemma addr_right x : exists a, vis (rjust 16 (addr C x)) a /\ right (8 - n) (dec x) a.
  Proof.
    destruct (addr_ok x) as (V & L). exists (repeat 32 (8 - n - length (dec x)) ++ dec x). split; [|reflexivity].
    unfold rjust. apply vis_app; [|exact V].
    replace (spaces (16 - blen (addr C x))) with (repeat 32 (8 - n - length (dec x))) by (unfold spaces, blen; f_equal; lia).
    apply vis_self. clear. induction (8 - n - length (dec x))%nat; cbn [repeat]; constructor; [lia|assumption].
  Qed.
  Lemma addr_left x : exists a, vis (ljust 16 (addr C x)) a /\ left (8 - n) (dec x) a.
  Proof.
    destruct (addr_ok x) as (V & L). exists (dec x ++ repeat 32 (8 - n - length (dec x))). split; [|reflexivity].
    unfold ljust. apply vis_app; [exact V|].
    replace (spaces (16 - blen (addr C x))) with (repeat 32 (8 - n - length (dec x))) by (unfold spaces, blen; f_equal; lia).
    apply vis_self. clear. induction (8 - n - length (dec x))%nat; cbn [repeat]; constructor; [lia|assumption].
  Qed.

  Lemma int_ok w : blen w = 8 -> exists s i, int64_col C w = Ok s /\ vis s i /\ decimal (to_signed 64 (le_dec w)) i.
  Proof.
    intros L. unfold int64_col, unpack8. rewrite L. cbn [Z.eqb Pos.eqb bind]. change (fdec Fq w) with (to_signed 64 (le_dec w)).
    eexists _, (dec (to_signed 64 (le_dec w))). split; [reflexivity|]. split; [|apply decimal_dec].
    destruct (_ <? 65536); [|apply vis_set; [apply CO|]]; apply vis_self; apply no_esc_dec.
  Qed.
  Lemma float_ok w : blen w = 8 -> exists s f, float64_col C FT w = Ok s /\ vis s f /\ float_col (ft_str FT) (ft_exp FT) (le_dec w) f.
  Proof.
    intros L. unfold float64_col, unpack8. rewrite L. cbn [Z.eqb Pos.eqb bind]. change (fdec FQ w) with (le_dec w).
    destruct (FO (le_dec w)) as (A & B). set (t := ft_str FT (le_dec w)) in *.
    assert (LR : length (rjust 9 t) = Nat.max 9 (length t)) by (unfold rjust, spaces, blen; rewrite app_length, repeat_length; lia).
    destruct (Z.ltb_spec 9 (blen (rjust 9 t))) as [G|G]; unfold blen in G; rewrite LR in G; (eexists _, _; split; [reflexivity|]).
    - split; [apply vis_set; [apply CO|apply vis_self; exact B]|]. right. split; [unfold t in *; lia|reflexivity].
    - split; [apply vis_ljust; apply no_esc_app; [apply no_esc_spaces|exact A]|]. left. split; [unfold t in *; lia|].
      unfold ljust. replace (9 - blen (rjust 9 t)) with 0 by (unfold blen; lia). cbn [spaces Z.to_nat repeat]. rewrite app_nil_r.
      exact (right_rjust 9 t).
  Qed.

  Lemma range_ok x max : 0 <= x -> small max x (if_in_range x 0 max) /\ no_esc (if_in_range x 0 max).
  Proof.
    intros P. unfold if_in_range, small. destruct (Z.leb_spec 0 x); [|lia]. destruct (Z.ltb_spec x max); cbn [andb].
    - split; [left; split; [assumption|apply decimal_dec]|apply no_esc_dec].
    - split; [right; auto|]. repeat constructor. discriminate.
  Qed.
  Lemma vis_right k m s : m = Z.of_nat k -> no_esc s -> exists a, vis (rjust m s) a /\ right k s a.
  Proof. intros -> H. exists (rjust (Z.of_nat k) s). split; [now apply vis_rjust|apply right_rjust]. Qed.
  Lemma gray_ok b s t : vis s t -> vis (if b : bool then set_color (c_gray C) s else s) t.
  Proof. intros V. destruct b; [|exact V]. apply vis_set; [apply CO|exact V]. Qed.

  Lemma word_fields w : blen w = 8 ->
    let p := fdec Fq w in let u := le_dec w in
    kind p = p_kind u /\ offset p = p_off u /\ struct_data_size p = p_dsize u /\ struct_ptrs_size p = p_psize u /\
    list_size_tag p = p_ltag u /\ list_item_count p = p_lcount u /\ far_landing_pad p = p_farpad u /\ far_target p = p_farseg u /\
    (forall pos, deref p pos = p_target u pos) /\ (p = 0 <-> u = 0).
  Proof.
    intros L p u. pose proof (le_dec_range w) as R. rewrite L in R. change (256 ^ 8) with (2 ^ 64) in R. fold u in R.
    destruct (f_decode p) as (A1 & A2 & A3 & A4 & A5 & A6 & A7 & _ & A8 & A9).
    assert (M : p mod 2 ^ 64 = u /\ (p = 0 <-> u = 0)).
    { unfold p, fdec. cbn [fsigned fsize]. fold u. unfold to_signed. change (8 * 8) with 64. clear -R.
      destruct (Z.ltb_spec u (2 ^ (64 - 1))).
      - split; [apply Z.mod_small; lia|reflexivity].
      - split; [|lia]. replace (u - 2 ^ 64) with (u + (-1) * 2 ^ 64) by lia. rewrite Z.mod_add by lia. apply Z.mod_small. lia. }
    destruct M as (M & Z0). rewrite M in *. unfold p_kind, p_off, p_dsize, p_psize, p_ltag, p_lcount, p_farpad, p_farseg, p_target.
    repeat split; try assumption; try (apply Z0).
    - rewrite A4. symmetry. apply Z.mod_small. clear -R. lia.
    - rewrite A6. symmetry. apply Z.mod_small. clear -R. lia.
    - rewrite A8. symmetry. apply Z.mod_small. clear -R. lia.
    - intros pos. rewrite A9, A2. reflexivity.
  Qed.

  Lemma tag_ok t : 0 <= t < 8 -> list_tag t = lit (tag_name t) /\ no_esc (list_tag t).
  Proof.
    intros H. assert (t = 0 \/ t = 1 \/ t = 2 \/ t = 3 \/ t = 4 \/ t = 5 \/ t = 6 \/ t = 7) as T by lia.
    repeat (destruct T as [->|T]; [split; [reflexivity|repeat constructor; discriminate]|]). subst. split; [reflexivity|repeat constructor; discriminate].
  Qed.

  Lemma ptr_ok pos w : blen w = 8 -> exists s t, ptr_col C pos w = Ok s /\ vis s t /\ pointer (8 - n) (le_dec w) pos t.
  Proof.
    intros L. destruct (word_fields w L) as (K & O & DS & PS & LT & LC & FP & FS & D & Z0).
    pose proof (le_dec_range w) as R. rewrite L in R.
    unfold ptr_col, unpack8. rewrite L. cbn [Z.eqb Pos.eqb bind]. set (p := fdec Fq w) in *. set (u := le_dec w) in *.
    rewrite K. assert (KR : 0 <= p_kind u < 4) by (unfold p_kind; lia).
    assert (T : exists d, vis (if (-1000 <? offset p) && (offset p <? 1000) then ljust 16 (addr C (deref p pos)) else lit "?     ") d /\ target (8 - n) u pos d).
    { rewrite O, D. destruct ((-1000 <? p_off u) && (p_off u <? 1000)) eqn:E.
      - destruct (addr_left (p_target u pos)) as (a & V & A). exists a. split; [exact V|]. left. split; [lia|].
        exists (dec (p_target u pos)). split; [apply decimal_dec|exact A].
      - eexists. split; [lit_ok|]. right. split; [lia|reflexivity]. }
    destruct T as (d & VD & TD).
    assert (KC : p_kind u = 0 \/ p_kind u = 1 \/ p_kind u = 2 \/ p_kind u = 3) by lia.
    destruct KC as [E|[E|[E|E]]]; rewrite E; cbn [Z.eqb Pos.eqb orb negb STRUCT LIST FAR].
    - destruct (Z.eqb_spec p 0) as [P|P].
      + eexists _, _. split; [reflexivity|]. split; [|apply pt_null; tauto]. lit_ok.
      + rewrite DS, PS. destruct (range_ok (p_dsize u) 100) as (A1 & A2); [unfold p_dsize; lia|].
        destruct (range_ok (p_psize u) 100) as (B1 & B2); [unfold p_psize; lia|].
        destruct (vis_right 4 4 _ eq_refl A2) as (a & VA & RA). destruct (vis_right 3 3 _ eq_refl B2) as (b & VB & RB).
        eexists _, _. split; [reflexivity|]. split; [apply gray_ok|].
        * apply vis_app; [|apply vis_app; [lit_ok|exact VD]].
          apply vis_app; [lit_ok|]. apply vis_app; [exact VA|]. apply vis_app; [lit_ok|exact VB].
        * rewrite <- !app_assoc. eapply pt_struct; try eassumption. tauto.
    - assert (P : p <> 0) by (intros P; apply Z0 in P; rewrite P in E; discriminate). apply Z.eqb_neq in P. rewrite P.
      rewrite LT, LC. destruct (range_ok (p_lcount u) 65536) as (A1 & A2); [unfold p_lcount; lia|].
      destruct (vis_right 5 5 _ eq_refl A2) as (a & VA & RA).
      destruct (tag_ok (p_ltag u)) as (T1 & T2); [unfold p_ltag; lia|].
      assert (NE : no_esc (lit "<" ++ list_tag (p_ltag u) ++ lit ">"))
        by (apply no_esc_app; [|apply no_esc_app; [exact T2|]]; repeat constructor; discriminate).
      eexists _, _. split; [reflexivity|]. split; [apply gray_ok|].
      + apply vis_app; [|apply vis_app; [lit_ok|exact VD]].
        apply vis_app; [lit_ok|]. apply vis_app; [apply vis_ljust; exact NE|]. apply vis_app; [lit_ok|exact VA].
      + rewrite <- !app_assoc. eapply pt_list; try eassumption. rewrite <- T1. exact (left_ljust 5 _).
    - assert (P : p <> 0) by (intros P; apply Z0 in P; rewrite P in E; discriminate). apply Z.eqb_neq in P. rewrite P.
      rewrite FP, FS. destruct (range_ok (p_farseg u) 100) as (A1 & A2); [unfold p_farseg; lia|].
      destruct (vis_right 3 3 _ eq_refl A2) as (a & VA & RA).
      destruct (vis_right 7 7 (dec (p_farpad u)) eq_refl (no_esc_dec _)) as (b & VB & RB).
      eexists _, _. split; [reflexivity|]. split; [apply gray_ok|].
      + apply vis_app; [|apply vis_app; [lit_ok|exact VD]].
        apply vis_app; [lit_ok|]. apply vis_app; [exact VB|]. apply vis_app; [lit_ok|exact VA].
      + rewrite <- !app_assoc. eapply pt_far; try eassumption. apply decimal_dec.
    - eexists _, _. split; [reflexivity|]. split; [|apply pt_other; exact E]. lit_ok.
  Qed.

  Lemma line_ok pos w : blen w = 8 -> exists s, line C FT pos w = Ok s /\ shows (8 - n) (ft_str FT) (ft_exp FT) pos w (plain s).
  Proof.
    intros L. destruct (int_ok w L) as (i & i' & I1 & I2 & I3). destruct (float_ok w L) as (f & f' & F1 & F2 & F3).
    destruct (ptr_ok pos w L) as (p & p' & P1 & P2 & P3). destruct (addr_right pos) as (a & A1 & A2).
    destruct (hex_ok w) as (h & H1 & H2); [intros ->; discriminate|]. destruct (string_ok w) as (S1 & S2).
    unfold line. rewrite I1, F1, P1. cbn [bind]. eexists. split; [reflexivity|].
    exists (dec pos), a, h, p', f', i'. split; [|split; [apply decimal_dec|split; [exact A2|split; [exact H2|split; [exact P3|split; [exact F3|exact I3]]]]]].
    assert (J : rjust 8 (string_col C w) = string_col C w).
    { unfold rjust, spaces, blen in *. replace (Z.to_nat (8 - Z.of_nat (length (string_col C w)))) with 0%nat by lia. reflexivity. }
    rewrite J.
    assert (V : vis (rjust 16 (addr C pos) ++ lit ":  " ++ hex_col C w ++ lit "  " ++ string_col C w ++ lit "  " ++ p ++ lit " " ++ f ++ lit "  " ++ i)
                    (a ++ lit ":  " ++ h ++ lit "  " ++ map char_of w ++ lit "  " ++ p' ++ lit " " ++ f' ++ lit "  " ++ i')).
    { apply vis_app; [exact A1|]. apply vis_app; [lit_ok|]. apply vis_app; [exact H1|]. apply vis_app; [lit_ok|].
      apply vis_app; [exact S1|]. apply vis_app; [lit_ok|]. apply vis_app; [exact P2|]. apply vis_app; [lit_ok|].
      apply vis_app; [exact F2|]. apply vis_app; [lit_ok|exact I2]. }
    exact (proj1 V).
  Qed.
End columns.
