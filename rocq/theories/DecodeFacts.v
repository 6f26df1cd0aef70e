(** Facts about decode and the adapter. *)
From Verif Require Import Base Spec BaseFacts Ptr Segment Struct Message MessageFacts Stream StreamFacts MsgFinal Decode.

(** What decode does is what load_all does, with ValueError and the normal
    end exchanged: a clean end of file is an uncaught EOFError, anything that
    makes load raise ValueError is a normal exit. *)
Definition decode_end (e : option exn) : option exn :=
  match e with
  | None => Some EOFError
  | Some ValueError => None
  | Some e => Some e
  end.

Section facts.
  Context (St : Type) (read : Z -> St -> bytes * St) (T : Type) (shortrepr : obj -> res T).

  Lemma decode_load_all fuel : forall st os lines e,
    load_all St read fuel st = (map Some os, e) ->
    Forall2 (fun o l => shortrepr o = Ok l) os lines ->
    decode St read T shortrepr fuel st = (lines, decode_end e).
  Proof.
    induction fuel as [|fuel IH]; intros st os lines e L F; cbn [load_all decode] in *.
    - assert (E1 : [] = map Some os) by congruence. destruct os; [|discriminate].
      inversion F; subst. assert (e = Some OutOfFuel) by congruence. subst. reflexivity.
    - destruct (load St read st) as [[x|ex] st'] eqn:LD.
      + destruct (load_all St read fuel st') as [l r] eqn:LA.
        destruct os as [|o os]; [discriminate|]. cbn [map] in L.
        assert (x = Some o) by congruence. assert (l = map Some os) by congruence. assert (r = e) by congruence.
        subst. inversion F as [|? line ? lines' S F']; subst. rewrite S. rewrite (IH st' os lines' e LA F'). reflexivity.
      + destruct os as [|o os].
        * inversion F; subst. destruct ex; assert (E : e = _) by (symmetry; exact (f_equal snd L)); cbn in E; subst e; reflexivity.
        * exfalso. destruct ex; discriminate.
  Qed.

  (** a message whose root pointer is null *)
  Lemma decode_none fuel : forall st os xs lines e,
    load_all St read fuel st = (map Some os ++ None :: xs, e) ->
    Forall2 (fun o l => shortrepr o = Ok l) os lines ->
    decode St read T shortrepr fuel st = (lines, Some AttributeError).
  Proof.
    induction fuel as [|fuel IH]; intros st os xs lines e L F; cbn [load_all decode] in *.
    - destruct os; discriminate.
    - destruct (load St read st) as [[x|ex] st'] eqn:LD.
      + destruct (load_all St read fuel st') as [l r] eqn:LA.
        destruct os as [|o os]; cbn [map app] in L.
        * assert (x = None) by congruence. subst. inversion F; subst. reflexivity.
        * assert (x = Some o) by congruence. assert (l = map Some os ++ None :: xs) by congruence.
          subst. inversion F as [|? line ? lines' S F']; subst. rewrite S. rewrite (IH st' os xs lines' r LA F'). reflexivity.
      + exfalso. destruct os; destruct ex; discriminate.
  Qed.
End facts.

Lemma decode_file T (shortrepr : obj -> res T) msgs os lines fuel chunks :
  Forall (fun m => frameable (snd m) /\ pad_ok (fst m) (snd m)) msgs ->
  Forall2 (fun m o => loads (frame_with (fst m) (snd m)) = Ok (Some o)) msgs os ->
  Forall2 (fun o l => shortrepr o = Ok l) os lines ->
  Forall (fun ch => ch <> []) chunks ->
  concat chunks = concat (map (fun m => frame_with (fst m) (snd m)) msgs) ->
  (length msgs < fuel)%nat ->
  decode _ bs_read T shortrepr fuel (bs_init chunks) = (lines, Some EOFError).
Proof.
  intros F X P CH E L.
  rewrite (decode_load_all _ _ _ _ fuel _ os lines None); [reflexivity| |exact P].
  apply (load_all_stream msgs); try assumption. clear - X. induction X; constructor; auto.
Qed.

Lemma decode_file_cut T (shortrepr : obj -> res T) msgs os lines m pre more fuel chunks :
  Forall (fun m => frameable (snd m) /\ pad_ok (fst m) (snd m)) msgs ->
  Forall2 (fun m o => loads (frame_with (fst m) (snd m)) = Ok (Some o)) msgs os ->
  Forall2 (fun o l => shortrepr o = Ok l) os lines ->
  frameable (snd m) -> pad_ok (fst m) (snd m) -> concat (snd m) <> [] ->
  pre ++ more = frame_with (fst m) (snd m) -> pre <> [] -> more <> [] ->
  Forall (fun ch => ch <> []) chunks ->
  concat chunks = concat (map (fun m => frame_with (fst m) (snd m)) msgs) ++ pre ->
  (length msgs < fuel)%nat ->
  decode _ bs_read T shortrepr fuel (bs_init chunks) = (lines, None).
Proof.
  intros F X P Fm Pm Nm E0 N1 N2 CH E L.
  rewrite (decode_load_all _ _ _ _ fuel _ os lines (Some ValueError)); [reflexivity| |exact P].
  apply (load_all_stream_cut msgs (map Some os) m pre more); try assumption. clear - X. induction X; constructor; auto.
Qed.

Lemma adapter_load St (f_read : Z -> St -> bytes * St) st :
  load St (adapter_read St f_read) st = load St f_read st.
Proof. reflexivity. Qed.
