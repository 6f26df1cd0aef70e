(** str.encode('utf-8') and bytes.decode('utf-8') (strict), used by
    util.py:24-32 (encode_maybe, decode_maybe), struct_.py (_read_text_unicode)
    and list.py:341-358. CPython's codecs: a str is the list of its code
    points. *)
From Verif Require Import Base BaseFacts Case.

(** Code points a strict codec accepts *)
Definition scalar (c : Z) : bool := ((0 <=? c) && (c <? 55296)) || ((57344 <=? c) && (c <? 1114112)).

Definition enc_char (c : Z) : bytes :=
  if c <? 128 then [Zb c]
  else if c <? 2048 then [Zb (192 + c / 64); Zb (128 + c mod 64)]
  else if c <? 65536 then [Zb (224 + c / 4096); Zb (128 + c / 64 mod 64); Zb (128 + c mod 64)]
  else [Zb (240 + c / 262144); Zb (128 + c / 4096 mod 64); Zb (128 + c / 64 mod 64); Zb (128 + c mod 64)].

(** UnicodeEncodeError (a ValueError) for surrogates *)
Definition utf8_encode (s : str) : res bytes :=
  if forallb scalar s then Ok (flat_map enc_char s) else Err ValueError.

Definition cont (b : byte) : bool := (128 <=? bZ b) && (bZ b <? 192).
Definition low6 (b : byte) : Z := bZ b - 128.

(** UnicodeDecodeError (a ValueError) for anything else *)
Fixpoint utf8_decode (l : bytes) : res str :=
  match l with
  | [] => Ok []
  | b0 :: r =>
      if bZ b0 <? 128 then do s <- utf8_decode r; Ok (bZ b0 :: s)
      else
        match r with
        | [] => Err ValueError
        | b1 :: r1 =>
            if bZ b0 <? 224 then
              let c := (bZ b0 - 192) * 64 + low6 b1 in
              if cont b1 && (128 <=? c) then do s <- utf8_decode r1; Ok (c :: s) else Err ValueError
            else
              match r1 with
              | [] => Err ValueError
              | b2 :: r2 =>
                  if bZ b0 <? 240 then
                    let c := (bZ b0 - 224) * 4096 + low6 b1 * 64 + low6 b2 in
                    if cont b1 && cont b2 && (2048 <=? c) && scalar c
                    then do s <- utf8_decode r2; Ok (c :: s) else Err ValueError
                  else
                    match r2 with
                    | [] => Err ValueError
                    | b3 :: r3 =>
                        let c := (bZ b0 - 240) * 262144 + low6 b1 * 4096 + low6 b2 * 64 + low6 b3 in
                        if cont b1 && cont b2 && cont b3 && (65536 <=? c) && scalar c
                        then do s <- utf8_decode r3; Ok (c :: s) else Err ValueError
                    end
              end
        end
  end.

(** util.py:24-32 *)
Definition encode_maybe (s : option str) : res (option bytes) :=
  match s with None => Ok None | Some s => do b <- utf8_encode s; Ok (Some b) end.
Definition decode_maybe (b : option bytes) : res (option str) :=
  match b with None => Ok None | Some b => do s <- utf8_decode b; Ok (Some s) end.

(** ** Facts *)
Lemma byte_eq b z : bZ b = z -> Zb z = b.
Proof. intros <-. apply Zb_bZ. Qed.

Ltac bz := rewrite ?bZ_Zb in *; unfold cont, low6, scalar in *.

Lemma decode_char c r : scalar c = true ->
  utf8_decode (enc_char c ++ r) = do s <- utf8_decode r; Ok (c :: s).
Proof.
  intros S. assert (R : 0 <= c < 1114112) by (unfold scalar in S; lia). unfold enc_char.
  destruct (Z.ltb_spec c 128).
  { cbn [app utf8_decode]. bz. rewrite Z.mod_small by lia. destruct (Z.ltb_spec c 128); [reflexivity|lia]. }
  destruct (Z.ltb_spec c 2048).
  { cbn [app utf8_decode]. set (b0 := Zb (192 + c / 64)). set (b1 := Zb (128 + c mod 64)).
    assert (B0 : bZ b0 = 192 + c / 64) by (subst b0; rewrite bZ_Zb, Z.mod_small; lia).
    assert (B1 : bZ b1 = 128 + c mod 64) by (subst b1; rewrite bZ_Zb, Z.mod_small; lia).
    clearbody b0 b1. unfold cont, low6. rewrite B0, B1.
    replace (192 + c / 64 <? 128) with false by lia. replace (192 + c / 64 <? 224) with true by lia.
    replace ((192 + c / 64 - 192) * 64 + (128 + c mod 64 - 128)) with c by lia.
    replace ((128 <=? 128 + c mod 64) && (128 + c mod 64 <? 192) && (128 <=? c)) with true by lia. reflexivity. }
  destruct (Z.ltb_spec c 65536).
  { cbn [app utf8_decode]. set (b0 := Zb (224 + c / 4096)). set (b1 := Zb (128 + c / 64 mod 64)). set (b2 := Zb (128 + c mod 64)).
    assert (B0 : bZ b0 = 224 + c / 4096) by (subst b0; rewrite bZ_Zb, Z.mod_small; lia).
    assert (B1 : bZ b1 = 128 + c / 64 mod 64) by (subst b1; rewrite bZ_Zb, Z.mod_small; lia).
    assert (B2 : bZ b2 = 128 + c mod 64) by (subst b2; rewrite bZ_Zb, Z.mod_small; lia).
    clearbody b0 b1 b2. unfold cont, low6. rewrite B0, B1, B2.
    replace (224 + c / 4096 <? 128) with false by lia. replace (224 + c / 4096 <? 224) with false by lia.
    replace (224 + c / 4096 <? 240) with true by lia.
    replace ((224 + c / 4096 - 224) * 4096 + (128 + c / 64 mod 64 - 128) * 64 + (128 + c mod 64 - 128)) with c by lia.
    rewrite S.
    replace ((128 <=? 128 + c / 64 mod 64) && (128 + c / 64 mod 64 <? 192)) with true by lia.
    replace ((128 <=? 128 + c mod 64) && (128 + c mod 64 <? 192)) with true by lia.
    replace (2048 <=? c) with true by lia. reflexivity. }
  cbn [app utf8_decode]. set (b0 := Zb (240 + c / 262144)). set (b1 := Zb (128 + c / 4096 mod 64)).
  set (b2 := Zb (128 + c / 64 mod 64)). set (b3 := Zb (128 + c mod 64)).
  assert (B0 : bZ b0 = 240 + c / 262144) by (subst b0; rewrite bZ_Zb, Z.mod_small; lia).
  assert (B1 : bZ b1 = 128 + c / 4096 mod 64) by (subst b1; rewrite bZ_Zb, Z.mod_small; lia).
  assert (B2 : bZ b2 = 128 + c / 64 mod 64) by (subst b2; rewrite bZ_Zb, Z.mod_small; lia).
  assert (B3 : bZ b3 = 128 + c mod 64) by (subst b3; rewrite bZ_Zb, Z.mod_small; lia).
  clearbody b0 b1 b2 b3. unfold cont, low6. rewrite B0, B1, B2, B3.
  replace (240 + c / 262144 <? 128) with false by lia. replace (240 + c / 262144 <? 224) with false by lia.
  replace (240 + c / 262144 <? 240) with false by lia.
  replace ((240 + c / 262144 - 240) * 262144 + (128 + c / 4096 mod 64 - 128) * 4096 + (128 + c / 64 mod 64 - 128) * 64 + (128 + c mod 64 - 128)) with c by lia.
  rewrite S.
  replace ((128 <=? 128 + c / 4096 mod 64) && (128 + c / 4096 mod 64 <? 192)) with true by lia.
  replace ((128 <=? 128 + c / 64 mod 64) && (128 + c / 64 mod 64 <? 192)) with true by lia.
  replace ((128 <=? 128 + c mod 64) && (128 + c mod 64 <? 192)) with true by lia.
  replace (65536 <=? c) with true by lia. reflexivity.
Qed.

Theorem decode_encode s b : utf8_encode s = Ok b -> utf8_decode b = Ok s.
Proof.
  unfold utf8_encode. destruct (forallb scalar s) eqn:F; [|discriminate]. intros H. injection H as <-.
  induction s as [|c s IH]; [reflexivity|]. cbn [forallb] in F. apply andb_prop in F. destruct F as (S & F).
  cbn [flat_map]. rewrite decode_char by exact S. rewrite (IH F). reflexivity.
Qed.

Lemma bytes_ind4 (P : bytes -> Prop) :
  P [] ->
  (forall b r, (forall r', (length r' <= length r)%nat -> P r') -> P (b :: r)) ->
  forall l, P l.
Proof.
  intros H0 H1 l. assert (Q : forall n l, (length l <= n)%nat -> P l).
  { induction n as [|n IH]; intros [|b r] L; cbn [length] in L; try exact H0; try lia.
    apply H1. intros r' L'. apply IH. lia. }
  exact (Q _ l (le_n _)).
Qed.

Theorem encode_decode b : forall s, utf8_decode b = Ok s -> utf8_encode s = Ok b.
Proof.
  assert (Q : forall c s e r, scalar c = true -> enc_char c = e -> utf8_encode s = Ok r -> utf8_encode (c :: s) = Ok (e ++ r)).
  { intros c s e r S <- H. unfold utf8_encode in *. cbn [forallb flat_map]. rewrite S. cbn [andb].
    destruct (forallb scalar s); [|discriminate]. injection H as <-. reflexivity. }
  induction b as [|b0 r IH] using bytes_ind4; intros s H; [injection H as <-; reflexivity|].
  cbn [utf8_decode] in H. pose proof (bZ_range b0) as R0.
  destruct (Z.ltb_spec (bZ b0) 128).
  { destruct (utf8_decode r) as [s'|] eqn:D; [|discriminate]. cbn [bind] in H. injection H as <-.
    apply (Q _ _ [b0]); [unfold scalar; lia| |apply IH; [lia|exact D]].
    unfold enc_char. destruct (Z.ltb_spec (bZ b0) 128); [|lia]. now rewrite Zb_bZ. }
  destruct r as [|b1 r]; [discriminate|]. pose proof (bZ_range b1) as R1.
  destruct (Z.ltb_spec (bZ b0) 224).
  { destruct (cont b1 && _) eqn:C in H; [|discriminate]. unfold cont, low6 in *.
    set (c := (bZ b0 - 192) * 64 + (bZ b1 - 128)) in *.
    destruct (utf8_decode r) as [s'|] eqn:D; [|discriminate]. cbn [bind] in H. injection H as <-.
    apply (Q _ _ [b0; b1]); [unfold scalar; lia| |apply IH; [cbn; lia|exact D]].
    unfold enc_char. destruct (Z.ltb_spec c 128); [lia|]. destruct (Z.ltb_spec c 2048); [|lia].
    repeat f_equal; apply byte_eq; lia. }
  destruct r as [|b2 r]; [discriminate|]. pose proof (bZ_range b2) as R2.
  destruct (Z.ltb_spec (bZ b0) 240).
  { destruct (cont b1 && _ && _ && _) eqn:C in H; [|discriminate]. unfold cont, low6 in *.
    set (c := (bZ b0 - 224) * 4096 + (bZ b1 - 128) * 64 + (bZ b2 - 128)) in *.
    apply andb_prop in C. destruct C as (C & S).
    destruct (utf8_decode r) as [s'|] eqn:D; [|discriminate]. cbn [bind] in H. injection H as <-.
    apply (Q _ _ [b0; b1; b2]); [exact S| |apply IH; [cbn; lia|exact D]].
    unfold enc_char. destruct (Z.ltb_spec c 128); [lia|]. destruct (Z.ltb_spec c 2048); [lia|].
    destruct (Z.ltb_spec c 65536); [|lia]. repeat f_equal; apply byte_eq; lia. }
  destruct r as [|b3 r]; [discriminate|]. pose proof (bZ_range b3) as R3.
  destruct (cont b1 && _ && _ && _ && _) eqn:C in H; [|discriminate]. unfold cont, low6 in *.
  set (c := (bZ b0 - 240) * 262144 + (bZ b1 - 128) * 4096 + (bZ b2 - 128) * 64 + (bZ b3 - 128)) in *.
  apply andb_prop in C. destruct C as (C & S).
  destruct (utf8_decode r) as [s'|] eqn:D; [|discriminate]. cbn [bind] in H. injection H as <-.
  apply (Q _ _ [b0; b1; b2; b3]); [exact S| |apply IH; [cbn; lia|exact D]].
  unfold enc_char. destruct (Z.ltb_spec c 128); [lia|]. destruct (Z.ltb_spec c 2048); [lia|].
  destruct (Z.ltb_spec c 65536); [lia|].
  repeat f_equal; apply byte_eq; lia.
Qed.

(** only UnicodeDecodeError *)
Lemma decode_error b : forall e, utf8_decode b = Err e -> e = ValueError.
Proof.
  induction b as [|b0 r IH] using bytes_ind4; intros e H; [discriminate|]. cbn [utf8_decode] in H.
  destruct (bZ b0 <? 128).
  { destruct (utf8_decode r) as [s'|e'] eqn:D; [discriminate|]. injection H as <-. exact (IH r (le_n _) _ D). }
  destruct r as [|b1 r]; [congruence|]. destruct (bZ b0 <? 224).
  { destruct (_ && _); [|congruence]. destruct (utf8_decode r) as [s'|e'] eqn:D; [discriminate|]. injection H as <-.
    refine (IH r _ _ D). cbn. lia. }
  destruct r as [|b2 r]; [congruence|]. destruct (bZ b0 <? 240).
  { destruct (_ && _); [|congruence]. destruct (utf8_decode r) as [s'|e'] eqn:D; [discriminate|]. injection H as <-.
    refine (IH r _ _ D). cbn. lia. }
  destruct r as [|b3 r]; [congruence|].
  destruct (_ && _); [|congruence]. destruct (utf8_decode r) as [s'|e'] eqn:D; [discriminate|]. injection H as <-.
  refine (IH r _ _ D). cbn. lia.
Qed.
