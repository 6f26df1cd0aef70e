(** Witnesses for the refutations of C35, C37, C44, and reachability for C43. *)
From Verif Require Import Base Spec BaseFacts Ptr PtrFacts Segment Builder Copy Endof Enc Struct Message List Query
  MsgFinal AlignFacts CopyFinal AnyPtr ReadFacts Samples.

(** Every object got from a message comes from _init_from_buffer. *)
Lemma struct_init o k o' : o_read_struct o k = Ok (Some o') ->
  exists s off ds ps, init_from_buffer s off ds ps = Ok o'.
Proof.
  unfold o_read_struct. intros H. apply bind_ok in H. destruct H as ((a & p) & _ & H).
  destruct (p =? 0); [discriminate|]. apply bind_ok in H. destruct H as (? & _ & H).
  apply bind_ok in H. destruct H as (o2 & H & E). apply ok_inj in E. injection E as <-.
  unfold init_from_pointer in H. apply bind_ok in H. destruct H as (? & _ & H). repeat eexists. exact H.
Qed.

Lemma item_init l i o : l_getitem l i = Ok (IObj o) -> exists s off ds ps, init_from_buffer s off ds ps = Ok o.
Proof.
  unfold l_getitem. destruct (_ && _); [|discriminate]. set (j := if _ <? _ then _ else _). unfold read_item.
  intros H. destruct (l_it l); repeat (apply bind_ok in H; destruct H as (? & ? & H)); try discriminate.
  - apply ok_inj in H. injection H as <-. repeat eexists. eassumption.
  - destruct x0. apply bind_ok in H. destruct H as (? & _ & H). discriminate.
  - destruct x0. apply bind_ok in H. destruct H as (? & _ & H). discriminate.
Qed.

Lemma reach_init r o : reach_obj r o -> exists s off ds ps, init_from_buffer s off ds ps = Ok o.
Proof.
  intros R. inversion R; subst.
  - match goal with H : loads r = _ |- _ => rename H into L end.
    destruct (MsgFinal.loads_sound _ _ L) as (segs & pad & F & P & E & I).
    unfold MsgFinal.open_segments in I. apply bind_ok in I. destruct I as (m & _ & I2). apply (struct_init _ _ _ I2).
  - eapply struct_init; eassumption.
  - eapply item_init; eassumption.
Qed.

(** ** C37 *)

(** a message whose root has one pointer, to what follows *)
Definition msg1 (words : bytes) : bytes := frame [le_enc 8 (w_struct 0 0 1) ++ words].
Definition list0 (m : bytes) (t : itype) : res lobj :=
  do x <- loads m;
  match x with
  | None => Err ValueError
  | Some o => do y <- o_read_list o 0 t; match y with Some l => Ok l | None => Err ValueError end
  end.

(** [5] as a list of Int8, with zero and with non-zero padding bytes *)
Definition pad_zero : bytes := msg1 (le_enc 8 (w_list 0 2 1) ++ le_enc 8 5).
Definition pad_junk : bytes := msg1 (le_enc 8 (w_list 0 2 1) ++ le_enc 8 (5 + 2 ^ 63)).

Lemma padding_refuted :
  (do a <- list0 pad_zero (ITPrim Fb); do b <- list0 pad_junk (ITPrim Fb);
   do xa <- l_iter 9 a 0; do xb <- l_iter 9 b 0; do e <- l_equals 9 true a b; Ok (xa, xb, e))
  = Ok ([IInt 5], [IInt 5], false).
Proof. vm_compute. reflexivity. Qed.

(** two Data items; the first pointer leads to the last block *)
Definition two_data (last : Z) : bytes :=
  msg1 (le_enc 8 (w_list 0 6 2) ++ le_enc 8 (w_list 2 2 8) ++ le_enc 8 (w_list 0 2 8) ++
        [x61; x61; x61; x61; x61; x61; x61; x61] ++ [x62; x62; x62; x62; x62; x62; x62] ++ le_enc 1 last).

Lemma non_compact_refuted :
  (do a <- list0 (two_data 0) (ITText 0); do b <- list0 (two_data 1) (ITText 0);
   do xa <- l_getitem a 0; do xb <- l_getitem b 0; do e <- l_equals 9 true a b; Ok (xa, xb, e))
  = Ok (IBytes (Some [x62; x62; x62; x62; x62; x62; x62; x00]),
        IBytes (Some [x62; x62; x62; x62; x62; x62; x62; x01]), true).
Proof. vm_compute. reflexivity. Qed.

(** ** C35: a list pointer announcing 100 Int64 items in a buffer that has
    two of them *)
Definition short_list : bytes := msg1 (le_enc 8 (w_list 0 5 100) ++ le_enc 8 7 ++ le_enc 8 8).
Lemma short_iter :
  (do l <- list0 short_list (ITPrim Fq); do xs <- l_iter 200 l 0; Ok (l_count l, xs))
  = Ok (100, [IInt 7; IInt 8]).
Proof. vm_compute. reflexivity. Qed.

(** ** C44 *)
Lemma far_anypointer :
  exists o, loads (frame_with [] sample3) = Ok (Some o) /\ obj_den o sample1_data sample1_ptrs /\
    ap_is_list o 0 = Ok false /\ ap_is_text o 0 = Ok false /\ ap_is_struct o 0 = Ok false /\
    ap_as_text_bytes o 0 = Ok (Some abc).
Proof.
  destruct sample3_loads as (o & L & O & _). exists o. split; [exact L|]. split; [exact O|].
  assert (X : (do x <- loads (frame_with [] sample3);
     match x with None => Err ValueError | Some o =>
       do a <- ap_is_list o 0; do b <- ap_is_text o 0; do c <- ap_is_struct o 0; do d <- ap_as_text_bytes o 0; Ok (a, b, c, d) end)
     = Ok (false, false, false, Some abc)) by (vm_compute; reflexivity).
  rewrite L in X. cbn [bind] in X.
  repeat (apply bind_ok in X; destruct X as (? & ? & X)). apply ok_inj in X. injection X as -> -> -> ->. auto.
Qed.

Lemma null_anypointer :
  exists o, loads (msg1 (le_enc 8 0)) = Ok (Some o) /\ ap_is_struct o 0 = Ok true /\ ap_as_struct o 0 = Ok None.
Proof.
  destruct (loads (msg1 (le_enc 8 0))) as [[o|]|] eqn:L; try (vm_compute in L; discriminate).
  exists o. split; [reflexivity|].
  assert (X : (do x <- loads (msg1 (le_enc 8 0));
     match x with None => Err ValueError | Some o => do a <- ap_is_struct o 0; do b <- ap_as_struct o 0; Ok (a, b) end)
     = Ok (true, None)) by (vm_compute; reflexivity).
  rewrite L in X. cbn [bind] in X.
  repeat (apply bind_ok in X; destruct X as (? & ? & X)). apply ok_inj in X. injection X as -> ->. auto.
Qed.
