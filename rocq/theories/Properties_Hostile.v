(** Property theorems C75: whatever the bytes of a message, reading it raises
    only documented kinds of exceptions, and gives only what is in the bytes.

    [loads r] is capnpy.loads(r, Cls); [reached r h]: [h] is an object or a
    list obtained from it by any sequence of field accesses (of fields at any
    place, of any type, whatever the schema) and indexings. *)
From Verif Require Import Base Spec BaseFacts Ptr PtrFacts Segment SegmentFacts Builder Copy Endof Struct List Message
  AnyPtr CReadSpec CReadFacts.
From Coq Require Import ZifyBool ZifyNat.
Ltac Zify.zify_post_hook ::= Z.div_mod_to_equations.

(** ** Specification *)

(** [r], if it is an exception, is one of [E] *)
Definition only {A} (E : exn -> Prop) (r : res A) : Prop := forall e, r = Err e -> E e.

(** IndexError, ValueError or AssertionError *)
Definition malformed (e : exn) : Prop := e = IndexError \/ e = ValueError \/ e = AssertionError.
(** when copying, also struct.error, or the recursion limit *)
Definition uncopyable (e : exn) : Prop := malformed e \/ e = StructError \/ e = OutOfFuel.

(** [b] is a part of the bytes [r] *)
Definition part_of (r b : bytes) : Prop := exists before after, r = before ++ b ++ after.

Inductive reached (r : bytes) : handle -> Prop :=
| re_root : forall o, loads r = Ok (Some o) -> reached r (HObj o)
| re_struct : forall o off o', reached r (HObj o) -> o_read_struct o off = Ok (Some o') -> reached r (HObj o')
| re_list : forall o off t l, reached r (HObj o) -> o_read_list o off t = Ok (Some l) -> reached r (HList l)
| re_item : forall l i o, reached r (HList l) -> l_getitem l i = Ok (IObj o) -> reached r (HObj o)
| re_inner : forall l i l', reached r (HList l) -> l_getitem l i = Ok (IList l') -> reached r (HList l').

(** ** Exceptions of every function *)
Lemma only_ok {A} E (x : A) : only E (Ok x). Proof. intros e H. discriminate H. Qed.
Lemma only_err {A} (E : exn -> Prop) e : E e -> @only A E (Err e). Proof. intros H e' X. injection X as <-. exact H. Qed.
Lemma only_bind {A B} E (r : res A) (k : A -> res B) : only E r -> (forall x, r = Ok x -> only E (k x)) -> only E (bind r k).
Proof. intros H K e. destruct r as [x|e']; cbn [bind]; [apply K; reflexivity|]. intros X. injection X as <-. apply H. reflexivity. Qed.
Lemma only_weak {A} (E F : exn -> Prop) (r : res A) : (forall e, E e -> F e) -> only E r -> only F r.
Proof. intros W H e X. apply W, H, X. Qed.
Lemma only_assert b : only malformed (py_assert b).
Proof. destruct b; [apply only_ok|apply only_err; unfold malformed; auto]. Qed.

Lemma read_primitive_only s i f : only malformed (read_primitive s i f).
Proof. destruct (read_primitive_cases s i f) as [(z & -> & _)| ->]; [apply only_ok|apply only_err; unfold malformed; auto]. Qed.
Lemma read_ptr_only s i : only malformed (read_ptr s i). Proof. apply read_primitive_only. Qed.
Lemma offsets_only t k : only malformed (offsets_get t k).
Proof. unfold offsets_get. destruct (nth_error _ _); [apply only_ok|apply only_err; unfold malformed; auto]. Qed.

Ltac step := match goal with
  | |- only _ (bind _ _) => apply only_bind; [|intros ? ?]
  | |- only _ (let (_, _) := ?x in _) => destruct x
  | |- only _ (match ?x with _ => _ end) => destruct x eqn:?
  | |- only _ (Ok _) => apply only_ok
  | |- only _ (Err _) => apply only_err; unfold malformed; tauto
  | |- only _ (py_assert _) => apply only_assert
  | |- only _ (read_primitive _ _ _) => apply read_primitive_only
  | |- only _ (read_ptr _ _) => apply read_ptr_only
  | |- only _ (offsets_get _ _) => apply offsets_only
  end.

Lemma read_far_only s i : only malformed (read_far_ptr s i).
Proof. unfold read_far_ptr. repeat step. Qed.
Lemma read_str_only s p i d a : only malformed (read_str s p i d a).
Proof. unfold read_str. cbv zeta. repeat step. Qed.
Lemma init_only s a b c : only malformed (init_from_buffer s a b c).
Proof. unfold init_from_buffer. cbv zeta. repeat step. Qed.
Lemma init_ptr_only s i p : only malformed (init_from_pointer s i p).
Proof. unfold init_from_pointer. step; [step|apply init_only]. Qed.
Lemma fast_only o i : only malformed (o_read_fast_ptr o i). Proof. unfold o_read_fast_ptr. repeat step. Qed.
Lemma prim_only o i f : only malformed (o_read_primitive o i f). Proof. unfold o_read_primitive. repeat step. Qed.
Lemma resolve_only o i : only malformed (o_resolve o i).
Proof.
  unfold o_resolve. step; [apply fast_only|]. step; [|step]. unfold o_read_far_ptr. step; [step|apply read_far_only].
Qed.
Lemma struct_only o i : only malformed (o_read_struct o i).
Proof. unfold o_read_struct. step; [apply resolve_only|]. step. step; [step|]. step; [step|]. step; [apply init_ptr_only|step]. Qed.
Lemma list_init_only s a b c t : only malformed (list_init s a b c t).
Proof. unfold list_init. repeat step. Qed.
Lemma list_only o i t : only malformed (o_read_list o i t).
Proof. unfold o_read_list. step; [apply resolve_only|]. step. step; [step|]. step; [step|]. step; [apply list_init_only|step]. Qed.
Lemma data_only o i d a : only malformed (o_read_data o i d a).
Proof. unfold o_read_data. step; [apply resolve_only|]. step. apply read_str_only. Qed.
Lemma item_only l i : only malformed (read_item l i).
Proof.
  unfold read_item. destruct (l_it l); cbv zeta; repeat (step || apply init_only || apply read_far_only || apply read_str_only || apply list_init_only).
Qed.
Lemma getitem_only l i : only malformed (l_getitem l i).
Proof. unfold l_getitem. cbv zeta. destruct (_ && _); [apply item_only|step]. Qed.
Lemma mapM_only {A B} E (f : A -> res B) l : (forall x, only E (f x)) -> only E (mapM f l).
Proof. intros H. induction l as [|x l IH]; cbn [mapM]; [step|]. step; [apply H|]. step; [exact IH|step]. Qed.

(** ** Bytes *)
Lemma part_refl r : part_of r r. Proof. exists [], []. rewrite app_nil_r. reflexivity. Qed.
Lemma part_trans a b c : part_of a b -> part_of b c -> part_of a c.
Proof.
  intros (x & y & ->) (z & w & ->). exists (x ++ z), (w ++ y). rewrite <- !app_assoc. reflexivity.
Qed.
Lemma part_sub r i n : part_of r (sub r i n).
Proof.
  unfold sub. exists (firstn (Z.to_nat i) r), (skipn (Z.to_nat n) (skipn (Z.to_nat i) r)).
  rewrite firstn_skipn. symmetry. apply firstn_skipn.
Qed.
Lemma part_slice r a b : part_of r (py_slice r a b). Proof. apply part_sub. Qed.

(** what the loader puts in the segment is a part of the input *)
Definition sees (r : bytes) (st : sb_state) : Prop := fst st = r.
Lemma sb_read_part r n st b st' : sees r st -> sb_read n st = (b, st') -> part_of r b /\ sees r st'.
Proof. unfold sees. destruct st as [s i]. cbn [fst]. intros ->. unfold sb_read. intros E. injection E as <- <-. split; [apply part_slice|reflexivity]. Qed.

Definition part_seg (r : bytes) (x : res seg * sb_state) : Prop :=
  sees r (snd x) /\ match fst x with Ok s => part_of r (sbuf s) | Err e => malformed e end.

Lemma unpack_only b i : only malformed (unpack_uint32 b i).
Proof.
  unfold unpack_uint32. destruct (_ || _) eqn:E; [step|]. rewrite unpack_from_in by (cbn [fsize]; lia). step.
Qed.
Lemma single_part r st : sees r st -> part_seg r (load_single sb_state sb_read st).
Proof.
  intros S. unfold load_single, part_seg. destruct (sb_read 4 st) as [b1 st1] eqn:E1. destruct (sb_read_part _ _ _ _ _ S E1) as [P1 S1].
  destruct (_ <? 4); [cbn; unfold malformed; auto|]. destruct (unpack_uint32 b1 0) as [z|e] eqn:U.
  2:{ cbn. split; [exact S1|]. exact (unpack_only b1 0 e U). }
  destruct (sb_read (z * 8) st1) as [b2 st2] eqn:E2. destruct (sb_read_part _ _ _ _ _ S1 E2) as [P2 S2].
  destruct (_ <? _); cbn; [unfold malformed; auto|]. auto.
Qed.
Lemma sizes_part r n : forall st, sees r st ->
  sees r (snd (load_sizes sb_state sb_read n st)) /\ only malformed (fst (load_sizes sb_state sb_read n st)).
Proof.
  induction n as [|n IH]; intros st S; cbn [load_sizes]; [split; [exact S|apply only_ok]|].
  destruct (sb_read 4 st) as [b1 st1] eqn:E1. destruct (sb_read_part _ _ _ _ _ S E1) as [P1 S1].
  destruct (_ <? 4); [split; [exact S1|apply only_err; unfold malformed; auto]|].
  destruct (IH st1 S1) as [A B]. destruct (load_sizes sb_state sb_read n st1) as [[l|e] st2]; cbn [fst snd] in *.
  - split; [exact A|apply only_ok].
  - split; [exact A|]. intros e' X. injection X as <-. apply B. reflexivity.
Qed.
Lemma multi_part r n st : sees r st -> part_seg r (load_multi sb_state sb_read n st).
Proof.
  intros S. unfold load_multi, part_seg. destruct (sizes_part r (Z.to_nat n) st S) as [A B].
  destruct (load_sizes sb_state sb_read (Z.to_nat n) st) as [[l|e] st2]; cbn [fst snd] in *.
  2:{ split; [exact A|]. apply B. reflexivity. }
  assert (S3 : sees r (if negb (Z.land (4 + n * 4) 7 =? 0) then snd (sb_read (8 - Z.land (4 + n * 4) 7) st2) else st2)).
  { destruct (negb _); [|exact A]. destruct (sb_read (8 - Z.land (4 + n * 4) 7) st2) as [b st3] eqn:E.
    destruct (sb_read_part _ _ _ _ _ A E) as [_ X]. exact X. }
  set (st3 := if negb _ then _ else _) in *. destruct (sb_read (sumZ l * 8) st3) as [b4 st4] eqn:E4.
  destruct (sb_read_part _ _ _ _ _ S3 E4) as [P4 S4]. destruct (_ <? _); cbn; [unfold malformed; auto|]. auto.
Qed.

(** a struct object or list has the segment it was read from *)
Lemma init_seg s a b c o : init_from_buffer s a b c = Ok o -> o_seg o = s.
Proof.
  unfold init_from_buffer. cbv zeta. destruct (py_assert _); [|discriminate]. cbn [bind]. destruct (py_assert _); [|discriminate].
  cbn [bind]. intros E. injection E as <-. reflexivity.
Qed.
Lemma struct_seg o i o' : o_read_struct o i = Ok (Some o') -> o_seg o' = o_seg o.
Proof.
  unfold o_read_struct. destruct (o_resolve o i) as [[x p]|]; [|discriminate]. cbn [bind]. destruct (p =? 0); [discriminate|].
  destruct (py_assert _); [|discriminate]. cbn [bind]. unfold init_from_pointer. destruct (py_assert _); [|discriminate]. cbn [bind].
  destruct (init_from_buffer _ _ _ _) as [y|] eqn:E; [|discriminate]. cbn [bind]. intros X. injection X as <-. eapply init_seg; exact E.
Qed.
Lemma list_init_seg s a b c t l : list_init s a b c t = Ok l -> l_seg l = s.
Proof. unfold list_init. destruct (_ =? _); [destruct (read_ptr s a); [|discriminate]; cbn [bind]|]; intros E; apply BaseFacts.ok_inj in E; subst l; reflexivity. Qed.
Lemma list_seg o i t l : o_read_list o i t = Ok (Some l) -> l_seg l = o_seg o.
Proof.
  unfold o_read_list. destruct (o_resolve o i) as [[x p]|]; [|discriminate]. cbn [bind]. destruct (p =? 0); [discriminate|].
  destruct (py_assert _); [|discriminate]. cbn [bind].
  destruct (list_init _ _ _ _ _) as [y|] eqn:E; [|discriminate]. cbn [bind]. intros X. injection X as <-. eapply list_init_seg; exact E.
Qed.
Definition same_seg (s : seg) (x : item) : Prop :=
  match x with IObj o => o_seg o = s | IList l => l_seg l = s | IBytes (Some b) => part_of (sbuf s) b | _ => True end.
Lemma str_part s p i d a b : read_str s p i d a = Ok (Some b) -> part_of (sbuf s) b \/ d = Some b.
Proof.
  unfold read_str. destruct (p =? 0); [intros E; injection E as ->; auto|]. destruct (py_assert _); [|discriminate]. cbn [bind].
  destruct (py_assert _); [|discriminate]. cbn [bind]. cbv zeta. intros E. left.
  apply BaseFacts.ok_inj in E. injection E as <-. apply part_slice.
Qed.
Lemma item_seg l i x : read_item l i = Ok x -> same_seg (l_seg l) x.
Proof.
  unfold read_item. destruct (l_it l); cbv zeta; intros E.
  - injection E as <-. exact I.
  - destruct (read_primitive _ _ _); [|discriminate]. cbn [bind] in E. injection E as <-. exact I.
  - destruct (read_primitive _ _ _); [|discriminate]. cbn [bind] in E. injection E as <-. exact I.
  - destruct (read_primitive _ _ _); [|discriminate]. cbn [bind] in E. injection E as <-. exact I.
  - destruct (init_from_buffer _ _ _ _) as [o|] eqn:F; [|discriminate]. cbn [bind] in E. injection E as <-. eapply init_seg; exact F.
  - destruct (read_ptr _ _) as [p|]; [|discriminate]. cbn [bind] in E.
    destruct (if kind p =? FAR then _ else _) as [[q p']|]; [|discriminate]. cbn [bind] in E.
    destruct (read_str _ _ _ _ _) as [[b|]|] eqn:F; [| |discriminate]; cbn [bind] in E; apply BaseFacts.ok_inj in E; subst x; [|exact I].
    destruct (str_part _ _ _ _ _ _ F) as [P|P]; [exact P|discriminate].
  - destruct (read_ptr _ _) as [p|]; [|discriminate]. cbn [bind] in E.
    destruct (if kind p =? FAR then _ else _) as [[q p']|]; [|discriminate]. cbn [bind] in E.
    destruct (list_init _ _ _ _ _) as [l'|] eqn:F; [|discriminate]. cbn [bind] in E. injection E as <-. eapply list_init_seg; exact F.
Qed.
Lemma getitem_seg l i x : l_getitem l i = Ok x -> same_seg (l_seg l) x.
Proof. unfold l_getitem. cbv zeta. destruct (_ && _); [apply item_seg|discriminate]. Qed.

Lemma load_message_part r st : sees r st ->
  match fst (load_message sb_state sb_read st) with
  | Ok o => part_of r (sbuf (o_seg o))
  | Err e => malformed e \/ e = EOFError
  end.
Proof.
  intros S. unfold load_message. destruct (sb_read 4 st) as [b1 st1] eqn:E1. destruct (sb_read_part _ _ _ _ _ S E1) as [P1 S1].
  destruct (_ =? 0); [cbn; auto|]. destruct (_ <? 4); [cbn; unfold malformed; auto|].
  destruct (unpack_uint32 b1 0) as [z|e] eqn:U; [|cbn; left; exact (unpack_only b1 0 e U)].
  assert (X : part_seg r (if z + 1 =? 1 then load_single sb_state sb_read st1 else load_multi sb_state sb_read (z + 1) st1)).
  { destruct (z + 1 =? 1); [apply single_part; exact S1|apply multi_part; exact S1]. }
  destruct (if z + 1 =? 1 then _ else _) as [[s|e] st2]; cbn in X; destruct X as [_ X]; cbn; [|left; exact X].
  pose proof (init_only s 0 0 1) as O. destruct (init_from_buffer s 0 0 1) as [o|e] eqn:F; [|left; apply O; reflexivity].
  rewrite (init_seg _ _ _ _ _ F). exact X.
Qed.

Lemma loads_cases r : (exists o, loads r = Ok (Some o) /\ part_of r (sbuf (o_seg o))) \/ loads r = Ok None \/
  (exists e, loads r = Err e /\ (malformed e \/ e = EOFError)).
Proof.
  unfold loads, load. pose proof (load_message_part r (r, 0) eq_refl) as P.
  destruct (load_message sb_state sb_read (r, 0)) as [[o|e] st]; cbn [fst] in P; [|right; right; eauto].
  pose proof (struct_only o 0) as O. destruct (o_read_struct o 0) as [[o'|]|e] eqn:F; [| |right; right; exists e; split; [reflexivity|left; apply O; reflexivity]].
  - destruct st as [s i]. destruct (negb _); [right; right; exists ValueError; unfold malformed; auto|]. left. exists o'. split; [reflexivity|].
    rewrite (struct_seg _ _ _ F). exact P.
  - destruct st as [s i]. destruct (negb _); [right; right; exists ValueError; unfold malformed; auto|]. auto.
Qed.

Definition h_seg (h : handle) : seg := match h with HObj o => o_seg o | HList l => l_seg l | HNone => {| sbuf := []; soffs := None |} end.
Lemma reached_part r h : reached r h -> part_of r (sbuf (h_seg h)).
Proof.
  induction 1 as [o E|o off o' R IH E|o off t l R IH E|l i o R IH E|l i l' R IH E]; cbn [h_seg] in *.
  - destruct (loads_cases r) as [(o' & E' & P)|[E'|(e & E' & _)]]; rewrite E in E'; [|discriminate E'|discriminate E'].
    apply BaseFacts.ok_inj in E'. injection E' as ->. exact P.
  - rewrite (struct_seg _ _ _ E). exact IH.
  - rewrite (list_seg _ _ _ _ E). exact IH.
  - pose proof (getitem_seg _ _ _ E) as X. cbn in X. rewrite X. exact IH.
  - pose proof (getitem_seg _ _ _ E) as X. cbn in X. rewrite X. exact IH.
Qed.

(** ** Copying *)
Lemma weak {A} (r : res A) : only malformed r -> only uncopyable r.
Proof. apply only_weak. unfold uncopyable. auto. Qed.
Lemma write_only f buf i v : only uncopyable (b_write f buf i v).
Proof. unfold b_write, pack_into. cbv zeta. repeat step; apply only_err; unfold uncopyable; auto. Qed.
Lemma bounds_only s a b : only uncopyable (check_bounds s a b).
Proof. unfold check_bounds. step; [apply only_err; unfold uncopyable, malformed; auto|step]. Qed.
Lemma astruct_only buf p a b : only uncopyable (alloc_struct buf p a b).
Proof. unfold alloc_struct. cbv zeta. step. step; [apply write_only|step]. Qed.
Lemma alist_only buf p t a b : only uncopyable (alloc_list buf p t a b).
Proof. unfold alloc_list. cbv zeta. step. step; [apply write_only|step]. Qed.

Section rec.
  Variable rec : seg -> Z -> Z -> bytes -> Z -> res bytes.
  Hypothesis H : forall s p i d j, only uncopyable (rec s p i d j).
  Lemma ptrs_only n : forall s i d j, only uncopyable (copy_ptrs_loop rec n s i d j).
  Proof.
    induction n as [|n IH]; intros s i d j; cbn [copy_ptrs_loop]; [step|]. step; [apply weak, read_primitive_only|].
    step; [step; [step|apply H]|apply IH].
  Qed.
  Lemma many_only n s i d j : only uncopyable (copy_many_ptrs rec n s i d j).
  Proof. unfold copy_many_ptrs. step; [apply bounds_only|apply ptrs_only]. Qed.
  Lemma items_only n il ps : forall s i d j, only uncopyable (copy_items_loop rec n il ps s i d j).
  Proof. induction n as [|n IH]; intros s i d j; cbn [copy_items_loop]; [step|]. step; [apply many_only|apply IH]. Qed.
  Lemma cstruct_only s p i d j : only uncopyable (copy_struct rec s p i d j).
  Proof.
    unfold copy_struct. cbv zeta. destruct (_ =? 0); [apply write_only|]. step; [apply astruct_only|]. step. step; [apply bounds_only|].
    apply many_only.
  Qed.
  Lemma cprim_only s p i d j : only uncopyable (copy_list_primitive s p i d j).
  Proof. unfold copy_list_primitive. cbv zeta. step; [apply alist_only|]. step. step; [apply bounds_only|step]. Qed.
  Lemma cptr_only s p i d j : only uncopyable (copy_list_ptr rec s p i d j).
  Proof. unfold copy_list_ptr. cbv zeta. step; [apply alist_only|]. step. step; [apply bounds_only|apply many_only]. Qed.
  Lemma ccomp_only s p i d j : only uncopyable (copy_list_composite rec s p i d j).
  Proof.
    unfold copy_list_composite. cbv zeta. step; [apply bounds_only|]. step; [apply weak, read_primitive_only|].
    step; [apply alist_only|]. step. apply items_only.
  Qed.
End rec.
Lemma copy_only fuel : forall s p i d j, only uncopyable (copy_pointer fuel s p i d j).
Proof.
  induction fuel as [|fuel IH]; intros s p i d j; cbn [copy_pointer]; [apply only_err; unfold uncopyable; auto|]. cbv zeta.
  destruct (_ =? STRUCT); [apply cstruct_only, IH|]. destruct (_ =? LIST).
  - destruct (_ =? LIST_SIZE_COMPOSITE); [apply ccomp_only, IH|]. destruct (_ =? LIST_SIZE_PTR); [apply cptr_only, IH|apply cprim_only].
  - destruct (_ =? FAR); [|step]. step; [apply weak, read_far_only|]. step. apply IH.
Qed.

Section erec.
  Variable rec : seg -> Z -> Z -> res Z.
  Hypothesis H : forall s p i, only uncopyable (rec s p i).
  Lemma eptrs_only n : forall s i e, only uncopyable (endof_ptrs rec n s i e).
  Proof.
    induction n as [|n IH]; intros s i e; cbn [endof_ptrs]; [step|]. step; [apply weak, read_ptr_only|].
    destruct (_ =? 0); [apply IH|]. destruct (negb _); [step|]. step; [apply H|apply IH].
  Qed.
  Lemma eitems_only n : forall s i a b e, only uncopyable (endof_items rec n s i a b e).
  Proof.
    induction n as [|n IH]; intros s i a b e; cbn [endof_items]; [step|]. step; [apply eptrs_only|]. destruct (_ =? -1); [step|apply IH].
  Qed.
End erec.
Lemma endof_only fuel : forall s p i, only uncopyable (endof fuel s p i).
Proof.
  induction fuel as [|fuel IH]; intros s p i; cbn [endof]; [apply only_err; unfold uncopyable; auto|]. cbv zeta.
  destruct (_ =? STRUCT); [apply eptrs_only, IH|]. destruct (_ =? LIST).
  - destruct (_ =? LIST_SIZE_COMPOSITE).
    + step; [apply weak, read_ptr_only|]. unfold endof_list_composite. destruct (_ =? 0); [step|apply eitems_only, IH].
    + destruct (_ =? LIST_SIZE_PTR); [apply eptrs_only, IH|]. destruct (_ =? LIST_SIZE_BIT); step.
  - destruct (_ =? FAR); [step|apply only_err; unfold uncopyable, malformed; auto].
Qed.
Lemma compact_only fuel o : only uncopyable (o_compact fuel o).
Proof. unfold o_compact. cbv zeta. cbn [allocate]. step; [apply copy_only|apply weak, init_only]. Qed.
Lemma dumps_only fuel o fast : only uncopyable (dumps fuel o fast).
Proof.
  unfold dumps. step; [destruct fast; [apply endof_only|step]|]. destruct (negb _).
  - cbv zeta. unfold dump_message. cbv zeta. destruct (_ || _); [apply only_err; unfold uncopyable, malformed; auto|].
    destruct (negb _); [apply only_err; unfold uncopyable; auto|step].
  - cbn [allocate]. step; [apply copy_only|]. cbv zeta. step; [apply write_only|]. step; [apply write_only|step].
Qed.

(** ** The theorems *)

Lemma not_eof : ~ malformed EOFError.
Proof. intros [H|[H|H]]; discriminate H. Qed.

(** loads(): any bytes at all. EOFError says that there is nothing. *)
Theorem C75_loads : forall r e, loads r = Err e -> malformed e \/ (e = EOFError /\ r = []).
Proof.
  intros r e E. destruct r as [|b r].
  - right. split; [|reflexivity]. vm_compute in E. injection E as <-. reflexivity.
  - destruct (loads_cases (b :: r)) as [(o & E' & _)|[E'|(e' & E' & X)]]; rewrite E in E'; [discriminate E'|discriminate E'|].
    injection E' as <-. destruct X as [X| ->]; [left; exact X|]. exfalso. revert E. unfold loads, load, load_message.
    unfold sb_read at 1. set (hd := py_slice (b :: r) 0 (0 + 4)).
    assert (L : 0 < blen hd).
    { unfold hd, py_slice. cbv zeta. pose proof (blen_nonneg r).
      rewrite blen_sub; unfold py_bound; change (0 + 4 <? 0) with false; change (0 <? 0) with false; cbv iota; rewrite blen_cons; lia. }
    destruct (Z.eqb_spec (blen hd) 0); [lia|]. destruct (_ <? 4); [discriminate|].
    pose proof (unpack_only hd 0) as U. destruct (unpack_uint32 hd 0) as [z|e'].
    2:{ intros X. injection X as ->. exact (not_eof (U _ eq_refl)). }
    assert (S1 : sees (b :: r) (b :: r, 0 + 4)) by reflexivity.
    assert (X : part_seg (b :: r) (if z + 1 =? 1 then load_single sb_state sb_read (b :: r, 0 + 4) else load_multi sb_state sb_read (z + 1) (b :: r, 0 + 4))).
    { destruct (z + 1 =? 1); [apply single_part; exact S1|apply multi_part; exact S1]. }
    destruct (if z + 1 =? 1 then _ else _) as [[s|e'] st2]; cbn in X; destruct X as [_ X].
    2:{ intros Y. injection Y as ->. exact (not_eof X). }
    pose proof (init_only s 0 0 1) as O. destruct (init_from_buffer s 0 0 1) as [o|e'].
    2:{ intros Y. injection Y as ->. exact (not_eof (O _ eq_refl)). }
    pose proof (struct_only o 0) as SO. destruct (o_read_struct o 0) as [x|e'].
    2:{ intros Y. injection Y as ->. exact (not_eof (SO _ eq_refl)). }
    destruct st2 as [s2 i2]. destruct (negb _); discriminate.
Qed.
Print Assumptions C75_loads.

(** The fields of an object: exceptions *)
Theorem C75_fields : forall r o, reached r (HObj o) -> forall off,
  (forall f, only malformed (o_read_primitive o off f)) /\
  (forall m, only malformed (o_read_bit o off m)) /\
  only malformed (o_which o off) /\
  (forall d (text : bool), only malformed (o_read_data o off d (if text then -1 else 0))) /\
  only malformed (o_read_struct o off) /\
  (forall t, only malformed (o_read_list o off t)).
Proof.
  intros r o R off. split; [intros f; apply prim_only|]. split; [intros m; unfold o_read_bit; step; [apply prim_only|step]|].
  split; [apply prim_only|]. split; [intros; apply data_only|]. split; [apply struct_only|intros; apply list_only].
Qed.
Print Assumptions C75_fields.

(** The fields of an object: what is read comes from the message *)
Theorem C75_field_values : forall r o, reached r (HObj o) -> forall off,
  (forall f z, 0 <= off -> o_read_primitive o off f = Ok z ->
     z = 0 \/ exists b, part_of r b /\ blen b = fsize f /\ z = fdec f b) /\
  (forall d (text : bool) b, o_read_data o off d (if text then -1 else 0) = Ok (Some b) -> part_of r b \/ d = Some b).
Proof.
  intros r o R off. pose proof (reached_part _ _ R) as P. cbn [h_seg] in P. split.
  - intros f z Ho E. unfold o_read_primitive in E. destruct (_ <=? _); [injection E as <-; auto|]. right.
    destruct (read_primitive_cases (o_seg o) (o_off o + off) f) as [(z' & E' & B1 & B2)|E']; rewrite E in E'; [|discriminate].
    exists (sub (sbuf (o_seg o)) (o_off o + off) (fsize f)). split; [eapply part_trans; [exact P|apply part_sub]|].
    pose proof (fsize_pos f) as FS. split; [apply blen_sub; lia|].
    unfold read_primitive in E. replace (_ || _) with false in E by lia. rewrite unpack_from_in in E by lia. injection E as <-. reflexivity.
  - intros d text b E. unfold o_read_data in E. destruct (o_resolve o off) as [[x p]|]; [|discriminate]. cbn [bind] in E.
    destruct (str_part _ _ _ _ _ _ E) as [X|X]; [left; eapply part_trans; eassumption|auto].
Qed.
Print Assumptions C75_field_values.

(** The items of a list: a list has less than 2^29 items (len() of a struct
    list may even be negative), and at any index, slice or position of a loop *)
Lemma list_init_count s a b c t l : list_init s a b c t = Ok l -> 0 <= c < 2 ^ 29 -> - 2 ^ 29 <= l_count l < 2 ^ 29.
Proof.
  intros E C. unfold list_init in E. destruct (_ =? _).
  - destruct (read_ptr s a) as [tag|]; [|discriminate]. cbn [bind] in E. apply BaseFacts.ok_inj in E. subst l. cbn [l_count].
    rewrite PtrFacts.offset_spec. unfold p_off. pose proof (to_signed_range 30 ((tag / 4) mod 2 ^ 30)) as X. lia.
  - apply BaseFacts.ok_inj in E. subst l. cbn [l_count]. lia.
Qed.
Lemma item_count_range p : 0 <= list_item_count p < 2 ^ 29.
Proof. rewrite item_count_spec. apply p_lcount_range. Qed.
Lemma list_count o off t l : o_read_list o off t = Ok (Some l) -> - 2 ^ 29 <= l_count l < 2 ^ 29.
Proof.
  intros E. unfold o_read_list in E. destruct (o_resolve o off) as [[x p]|]; [|discriminate]. cbn [bind] in E.
  destruct (p =? 0); [discriminate|]. destruct (py_assert _); [|discriminate]. cbn [bind] in E.
  destruct (list_init _ _ _ _ _) as [y|] eqn:F; [|discriminate]. cbn [bind] in E. apply BaseFacts.ok_inj in E. assert (Y : y = l) by congruence. subst l.
  eapply list_init_count; [exact F|apply item_count_range].
Qed.
Lemma inner_count l i l' : l_getitem l i = Ok (IList l') -> - 2 ^ 29 <= l_count l' < 2 ^ 29.
Proof.
  unfold l_getitem. cbv zeta. destruct (_ && _); [|discriminate]. unfold read_item. destruct (l_it l); cbv zeta; intros E.
  - discriminate.
  - destruct (read_primitive _ _ _); discriminate.
  - destruct (read_primitive _ _ _); discriminate.
  - destruct (read_primitive _ _ _); discriminate.
  - destruct (init_from_buffer _ _ _ _); discriminate.
  - destruct (read_ptr _ _) as [p|]; [|discriminate]. cbn [bind] in E.
    destruct (if kind p =? FAR then _ else _) as [[q p']|]; [|discriminate]. cbn [bind] in E.
    destruct (read_str _ _ _ _ _) as [[b|]|]; discriminate.
  - destruct (read_ptr _ _) as [p|]; [|discriminate]. cbn [bind] in E.
    destruct (if kind p =? FAR then _ else _) as [[q p']|]; [|discriminate]. cbn [bind] in E.
    destruct (list_init _ _ _ _ _) as [y|] eqn:F; [|discriminate]. cbn [bind] in E. apply BaseFacts.ok_inj in E. assert (Y : y = l') by congruence. subst l'.
    eapply list_init_count; [exact F|apply item_count_range].
Qed.

Theorem C75_items : forall r l, reached r (HList l) ->
  - 2 ^ 29 <= l_count l < 2 ^ 29 /\
  (forall i, only malformed (l_getitem l i)) /\
  (forall i, l_count l <= i -> l_getitem l i = Err IndexError) /\
  (forall a b c, only malformed (l_getslice l a b c)) /\
  (forall i b, l_getitem l i = Ok (IBytes (Some b)) -> part_of r b).
Proof.
  intros r l R. pose proof (reached_part _ _ R) as P. cbn [h_seg] in P.
  split; [|split; [intros; apply getitem_only|split; [|split]]].
  - inversion R as [| |o off t l' R' E| |l0 i l' R' E]; subst; [eapply list_count|eapply inner_count]; exact E.
  - intros i H. unfold l_getitem. cbv zeta. destruct (_ && _) eqn:C; [|reflexivity]. exfalso.
    destruct (i <? 0) eqn:N in C; lia.
  - intros a b c. unfold l_getslice. step; [unfold slice_indices; cbv zeta; repeat step|]. destruct x as [[x y] z].
    apply mapM_only. intros; apply item_only.
  - intros i b E. pose proof (getitem_seg _ _ _ E) as X. cbn in X. eapply part_trans; eassumption.
Qed.
Print Assumptions C75_items.

(** A loop over a list ends: after at most len() items *)
Lemma getitem_end l i : l_count l <= i -> l_getitem l i = Err IndexError.
Proof.
  intros H. unfold l_getitem. cbv zeta. destruct (_ && _) eqn:C; [|reflexivity]. exfalso. destruct (i <? 0) eqn:N in C; lia.
Qed.
Lemma iter_only l : forall fuel i, 0 < Z.of_nat fuel -> l_count l - i < Z.of_nat fuel ->
  only malformed (l_iter fuel l i) /\ (forall xs, l_iter fuel l i = Ok xs -> blen xs <= Z.max 0 (l_count l - i)).
Proof.
  induction fuel as [|fuel IH]; intros i H0 Hf; [lia|]. cbn [l_iter].
  destruct (Z.le_gt_cases (l_count l) i) as [C|C].
  - rewrite getitem_end by exact C. split; [step|]. intros xs E. injection E as <-. unfold blen. cbn [length]. lia.
  - pose proof (getitem_only l i) as G. destruct (l_getitem l i) as [x|e].
    + destruct (IH (i + 1) ltac:(lia) ltac:(lia)) as [A B]. destruct (l_iter fuel l (i + 1)) as [ys|e]; cbn [bind].
      * split; [step|]. intros xs E. injection E as <-. specialize (B ys eq_refl). rewrite blen_cons. lia.
      * split; [|discriminate]. intros e' E. injection E as <-. apply A. reflexivity.
    + specialize (G e eq_refl). destruct e; cbn; (split; [first [step|intros e' E; injection E as <-; exact G]|]); try discriminate.
      intros xs E. injection E as <-. unfold blen. cbn [length]. lia.
Qed.
Theorem C75_iteration : forall r l, reached r (HList l) -> forall fuel, (Z.to_nat (l_count l) < fuel)%nat ->
  only malformed (l_iter fuel l 0) /\
  (forall items, l_iter fuel l 0 = Ok items -> blen items <= Z.max 0 (l_count l)).
Proof.
  intros r l _ fuel H. destruct (iter_only l fuel 0) as [A B]; [lia|lia|]. split; [exact A|].
  intros xs E. specialize (B xs E). lia.
Qed.
Print Assumptions C75_iteration.

(** compact() and dumps() of what was read *)
Theorem C75_copies : forall r o, reached r (HObj o) -> forall fuel,
  only uncopyable (o_compact fuel o) /\ (forall fastpath, only uncopyable (dumps fuel o fastpath)).
Proof. intros r o _ fuel. split; [apply compact_only|intros; apply dumps_only]. Qed.
Print Assumptions C75_copies.

(** An AnyPointer field, whatever its pointer *)
Theorem C75_any_pointer : forall r o, reached r (HObj o) -> forall off,
  only malformed (ap_is_struct o off) /\ only malformed (ap_is_list o off) /\ only malformed (ap_is_text o off) /\
  only malformed (ap_as_text_bytes o off) /\ only malformed (ap_as_data o off) /\ only malformed (ap_as_struct o off) /\
  (forall t, only malformed (ap_as_list o off t)).
Proof.
  intros r o _ off. unfold ap_is_struct, ap_is_list, ap_is_text.
  repeat (split; [first [step; [apply fast_only|step] | apply data_only | apply struct_only]|]). intros; apply list_only.
Qed.
Print Assumptions C75_any_pointer.

(** ** What the bytes do not bound *)
From Verif Require Import Query Enc EncFacts EncDen ObjFacts AlignFacts MessageFacts MsgFinal CopyFinal Samples.

(** Refuted: a message bounds what can be read from it. 40 bytes: the root
    struct has one pointer, to a list of 2^29 - 1 items of no size. *)
Definition many_voids : bytes := frame_with [] [le_enc 8 (w_struct 0 0 1) ++ le_enc 8 (w_list 0 0 (2 ^ 29 - 1))].
Theorem C75_len_refuted : blen many_voids = 24 /\
  exists o l, loads many_voids = Ok (Some o) /\ o_read_list o 0 ITVoid = Ok (Some l) /\ l_count l = 536870911 /\
    forall i, 0 <= i < 536870911 -> l_getitem l i = Ok INone.
Proof.
  split; [vm_compute; reflexivity|]. eexists. eexists. split; [vm_compute; reflexivity|]. split; [vm_compute; reflexivity|].
  split; [reflexivity|]. intros i H. unfold l_getitem. cbn [l_count l_it]. cbv zeta. destruct (i <? 0) eqn:?; [lia|].
  destruct (_ && _) eqn:C; [reflexivity|]. lia.
Qed.
Print Assumptions C75_len_refuted.

(** Refuted: compact() gives an object not larger than the message. Structs of
    two pointers each, both to the next struct: 464 bytes give 4 GB. *)
Fixpoint doubling (n : nat) : bytes :=
  match n with
  | O => le_enc 8 0 ++ le_enc 8 0
  | S n => le_enc 8 (w_struct 1 0 2) ++ le_enc 8 (w_struct 0 0 2) ++ doubling n
  end.
Definition doubling_message (n : nat) : bytes := frame_with [] [le_enc 8 (w_struct 0 0 2) ++ doubling n].
Fixpoint doubled (n : nat) : value :=
  match n with O => VStruct [] [VNull; VNull] | S n => VStruct [] [doubled n; doubled n] end.

Lemma doubling_len n : blen (doubling n) = 16 * (Z.of_nat n + 1).
Proof. induction n as [|n IH]; cbn [doubling]; [reflexivity|]. rewrite !blen_app, !blen_le_enc, IH. lia. Qed.
Lemma struct_word off ps : - 2 ^ 29 <= off < 2 ^ 29 -> 0 <= ps < 2 ^ 15 -> to_signed 64 (w_struct off 0 ps mod 2 ^ 64) = w_struct off 0 ps.
Proof. intros A B. unfold to_signed, w_struct. destruct (_ <? _) eqn:E; lia. Qed.
Lemma doubled_ptrs n : forall s pos, at_ s pos (doubling n) -> exists vs, doubled n = VStruct [] vs /\ den_ptrs s pos 2 vs.
Proof.
  induction n as [|n IH]; intros s pos A; cbn [doubling] in A.
  - exists [VNull; VNull]. split; [reflexivity|]. pose proof A as B. destruct B as (B1 & B2 & _). rewrite blen_app, !blen_le_enc in B2.
    apply at_app in A. destruct A as [A1 A2]. rewrite blen_le_enc in A2. apply at_word in A1, A2.
    apply dp_cons with (p := 0); [exact A1|apply den_null; reflexivity|].
    apply dp_cons with (p := 0); [exact A2|apply den_null; reflexivity|]. apply dp_nil. lia.
  - exists [doubled n; doubled n]. split; [reflexivity|].
    pose proof A as B. destruct B as (B1 & B2 & _). rewrite !blen_app, !blen_le_enc, doubling_len in B2.
    apply at_app in A. destruct A as [A1 A2]. apply at_app in A2. destruct A2 as [A2 A3]. rewrite !blen_le_enc in *.
    apply at_word in A1, A2. rewrite struct_word in A1, A2 by lia. change (Z.of_nat 8) with 8 in *.
    destruct (IH s (pos + 8 + 8) A3) as (vs & E & D). rewrite E.
    assert (X : forall off, 0 <= off < 2 -> den s (w_struct off 0 2) (pos + 8 * (1 - off)) (VStruct [] vs)).
    { intros off Ho. assert (T : p_target (w_struct off 0 2) (pos + 8 * (1 - off)) = pos + 8 + 8).
      { unfold p_target. rewrite w_struct_off by lia. lia. }
      apply den_struct.
      - unfold w_struct. lia.
      - apply w_struct_kind; lia.
      - rewrite T, w_struct_dsize by lia. apply at_bytes; [|reflexivity]. apply at_nil. lia.
      - rewrite T, w_struct_dsize, w_struct_psize by lia. replace (pos + 8 + 8 + 8 * 0) with (pos + 8 + 8) by lia. exact D. }
    apply dp_cons with (p := w_struct 1 0 2); [exact A1|replace pos with (pos + 8 * (1 - 1)) at 1 by lia; apply X; lia|].
    apply dp_cons with (p := w_struct 0 0 2); [exact A2|apply (X 0); lia|]. apply dp_nil. lia.
Qed.
Lemma doubled_content n : blen (content (doubled n)) = 16 * (2 ^ (Z.of_nat n + 1) - 1).
Proof.
  induction n as [|n IH]; [vm_compute; reflexivity|].
  change (doubled (S n)) with (VStruct [] [doubled n; doubled n]). rewrite content_struct. unfold vcs_of. cbn [map].
  rewrite !contents_cons, !blen_app, blen_ptr_words, IH. unfold contents. cbn [concat map]. unfold blen. cbn [length].
  replace (Z.of_nat (S n) + 1) with (Z.of_nat n + 1 + 1) by lia. rewrite (Z.pow_add_r 2 (Z.of_nat n + 1) 1) by lia. lia.
Qed.
Lemma doubled_lim n : limv (doubled n).
Proof.
  induction n as [|n IH].
  - apply (proj2 (vall_struct _ _ _)). split; [vm_compute; reflexivity|]. repeat constructor.
  - apply (proj2 (vall_struct _ _ _)). split; [vm_compute; reflexivity|]. repeat constructor; exact IH.
Qed.
Lemma doubled_depth n : vdepth (doubled n) = S (S n).
Proof. induction n as [|n IH]; [reflexivity|]. cbn [doubled vdepth map list_max fold_right] in *. rewrite IH. cbn [fold_right]. lia. Qed.

Theorem C75_blowup_refuted : forall n, (n <= 27)%nat ->
  blen (doubling_message n) = 16 * Z.of_nat n + 32 /\
  exists o, loads (doubling_message n) = Ok (Some o) /\
  forall fuel, (2 * (n + 2) <= fuel)%nat ->
    exists o', o_compact fuel o = Ok o' /\ slen (o_seg o') = 16 * (2 ^ (Z.of_nat n + 1) - 1) + 8.
Proof.
  intros n Hn. pose proof (doubling_len n) as DL.
  assert (SL : blen (le_enc 8 (w_struct 0 0 2) ++ doubling n) = 16 * Z.of_nat n + 24) by (rewrite blen_app, blen_le_enc, DL; lia).
  assert (BL : blen (doubling_message n) = 16 * Z.of_nat n + 32).
  { unfold doubling_message, frame_with. cbn [map concat]. rewrite !app_nil_r, !blen_app, !blen_le_enc, DL. unfold blen; cbn [length]. lia. }
  split; [exact BL|].
  set (m := le_enc 8 (w_struct 0 0 2) ++ doubling n) in *.
  assert (F : frameable [m]).
  { split; [discriminate|]. split; [vm_compute; discriminate|]. constructor; [|constructor]. rewrite SL. lia. }
  assert (P : pad_ok [] [m]) by reflexivity.
  assert (W : at_ (mem_of [m]) 0 m).
  { unfold at_, slen. cbn [mem_of sbuf]. nonneg. split; [lia|]. split; [lia|]. apply sub_all. }
  assert (W0 := W). unfold m in W0 at 2. apply at_app in W0. destruct W0 as [W1 W2].
  rewrite blen_le_enc in W2. apply at_word in W1. rewrite struct_word in W1 by lia.
  destruct (doubled_ptrs n _ _ W2) as (vs & E & D).
  assert (DN : den (mem_of [m]) (w_struct 0 0 2) 0 (VStruct [] vs)).
  { destruct W2 as (B1 & B2 & _).
    assert (T : p_target (w_struct 0 0 2) 0 = 8) by reflexivity.
    apply den_struct; [discriminate|reflexivity| |].
    - rewrite T. apply at_bytes; [|reflexivity]. apply at_nil. rewrite DL in B2. lia.
    - rewrite T. exact D. }
  destruct (loads_value [m] [] _ _ F P W1 DN) as (o & L & O). exists o. split; [exact L|].
  assert (A : aligned o).
  { apply (reach_aligned (doubling_message n)); [rewrite BL; lia|]. apply ro_loads. exact L. }
  intros fuel Hf. pose proof (doubled_lim n) as LM. pose proof (doubled_content n) as CT. pose proof (doubled_depth n) as DP. rewrite E in LM, CT, DP.
  assert (PW : 2 ^ (Z.of_nat n + 1) <= 2 ^ 28) by (apply Z.pow_le_mono_r; lia).
  destruct (compact_den o [] vs fuel O A LM) as (o' & C & _ & _ & _ & _ & _ & S); [rewrite CT; lia|rewrite DP; lia|].
  exists o'. split; [exact C|]. rewrite S. unfold slen. cbn [sbuf]. rewrite blen_app, blen_le_enc, CT. lia.
Qed.
Print Assumptions C75_blowup_refuted.

(** ** Examples *)

(** An object, a child and a list of a message are reached *)
Example C75_reached_ex : exists o c l i,
  reached (frame_with [] [sample1]) (HObj o) /\ o_read_struct o 8 = Ok (Some c) /\ reached (frame_with [] [sample1]) (HObj c) /\
  reached (frame_with [] [sample1]) (HList l) /\ l_getitem l 1 = Ok i /\ i = IInt 98.
Proof.
  destruct (is_ok_ex (loads (frame_with [] [sample1]))) as [[o|] E]; [vm_compute; reflexivity| |vm_compute in E; discriminate E].
  exists o. assert (R : reached (frame_with [] [sample1]) (HObj o)) by (apply re_root; exact E).
  assert (O := E). vm_compute in O. apply BaseFacts.ok_inj in O. assert (Y : forall A (x y : A), Some x = Some y -> x = y) by congruence.
  apply Y in O.
  destruct (is_ok_ex (o_read_struct o 8)) as [[c|] E1]; [subst o; vm_compute; reflexivity| |subst o; vm_compute in E1; discriminate E1].
  destruct (is_ok_ex (o_read_list o 0 (ITPrim FB))) as [[l|] E2]; [subst o; vm_compute; reflexivity| |subst o; vm_compute in E2; discriminate E2].
  exists c, l, (IInt 98). split; [exact R|]. split; [exact E1|]. split; [eapply re_struct; eassumption|].
  split; [eapply re_list; eassumption|]. split; [|reflexivity].
  subst o. vm_compute in E2. apply BaseFacts.ok_inj in E2. apply Y in E2. subst l. vm_compute. reflexivity.
Qed.

(** Each of the exceptions occurs: a list where a struct should be, a far
    pointer in a message of one segment, and a pointer to before the message
    (which loads(), but has fields that cannot be read) *)
Definition bad (w : Z) : res (option obj) := loads (frame_with [] [le_enc 8 w]).
Definition bad_field (w : Z) : res Z :=
  do o <- bad w; match o with None => Ok 0 | Some o => o_read_primitive o 0 Fq end.
Example C75_exceptions_ex : bad (w_list 0 2 0) = Err AssertionError /\ bad (w_far 0 0 7) = Err ValueError /\
  bad_field (w_struct (-5) 1 1) = Err IndexError.
Proof. repeat split; vm_compute; reflexivity. Qed.
