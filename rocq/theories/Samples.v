(** Concrete messages, used only to show that hypotheses are satisfiable. *)
From Verif Require Import Base Spec SegSpec.

Definition is_ok {A} (r : res A) : bool := match r with Ok _ => true | Err _ => false end.
Lemma is_ok_ex {A} (r : res A) : is_ok r = true -> exists x, r = Ok x.
Proof. destruct r as [x|e]; [exists x; reflexivity|discriminate]. Qed.

Definition abc : bytes := [x61; x62; x63].
Definition text_abc : bytes := [x61; x62; x63; x00] ++ zeros 4.

(** root: struct with one data word (42) and two pointers: the text "abc" and
    an empty child with one data word (7) *)
Definition sample1 : bytes :=
  le_enc 8 (w_struct 0 1 2) ++ le_enc 8 42 ++
  le_enc 8 (w_list 1 2 4) ++ le_enc 8 (w_struct 1 1 0) ++ text_abc ++ le_enc 8 7.

Definition sample1_data : bytes := le_enc 8 42.
Definition sample1_ptrs : list value :=
  [VList 2 4 [x61; x62; x63; x00]; VStruct (le_enc 8 7) []].

(** the same value over three segments: a one-word landing pad for the root,
    a two-word landing pad for the text *)
Definition sample3 : list bytes :=
  [ le_enc 8 (w_far 0 1 1);
    zeros 8 ++ le_enc 8 (w_struct 0 1 2) ++ le_enc 8 42 ++
      le_enc 8 (w_far 1 0 2) ++ le_enc 8 (w_struct 0 1 0) ++ le_enc 8 7;
    le_enc 8 (w_far 0 2 2) ++ le_enc 8 (w_list 0 2 4) ++ text_abc ].

Lemma sample1_den : exists p, word_at {| sbuf := sample1; soffs := None |} 0 = Some p /\
  den {| sbuf := sample1; soffs := None |} p 0 (VStruct sample1_data sample1_ptrs).
Proof.
  eexists. split; [vm_compute; reflexivity|].
  apply den_struct; [vm_compute; discriminate|reflexivity|vm_compute; reflexivity|].
  replace (Z.to_nat _) with 2%nat by reflexivity.
  eapply dp_cons; [vm_compute; reflexivity| |].
  - apply den_list; [reflexivity|vm_compute; discriminate|vm_compute; reflexivity].
  - eapply dp_cons; [vm_compute; reflexivity| |].
    + apply den_struct; [vm_compute; discriminate|reflexivity|vm_compute; reflexivity|].
      replace (Z.to_nat _) with 0%nat by reflexivity. constructor. split; vm_compute; discriminate.
    + constructor. split; vm_compute; discriminate.
Qed.

Lemma sample3_sden : exists p, seg_word sample3 0 0 = Some p /\
  sden sample3 0 p 0 (VStruct sample1_data sample1_ptrs).
Proof.
  eexists. split; [vm_compute; reflexivity|].
  eapply sden_far; [reflexivity|apply sfar_one; [reflexivity|vm_compute; reflexivity]|vm_compute; discriminate|discriminate|].
  apply sden_struct; [vm_compute; discriminate|reflexivity|vm_compute; reflexivity|].
  replace (Z.to_nat _) with 2%nat by reflexivity.
  eapply sdp_cons; [vm_compute; reflexivity| |].
  - eapply sden_far; [reflexivity| | | |].
    + eapply sfar_two; [reflexivity|vm_compute; reflexivity|vm_compute; reflexivity|reflexivity|reflexivity|reflexivity|].
      split; vm_compute; congruence.
    + vm_compute; discriminate.
    + discriminate.
    + apply sden_list; [reflexivity|vm_compute; discriminate|vm_compute; reflexivity].
  - eapply sdp_cons; [vm_compute; reflexivity| |].
    + apply sden_struct; [vm_compute; discriminate|reflexivity|vm_compute; reflexivity|].
      replace (Z.to_nat _) with 0%nat by reflexivity. constructor. vm_compute. reflexivity.
    + constructor. vm_compute. reflexivity.
Qed.

Lemma sample3_frameable : frameable sample3 /\ pad_ok [] sample3.
Proof.
  split; [|reflexivity]. split; [discriminate|]. split; [vm_compute; discriminate|].
  repeat constructor.
Qed.

Lemma sample1_frameable : frameable [sample1] /\ pad_ok [] [sample1].
Proof.
  split; [|reflexivity]. split; [discriminate|]. split; [vm_compute; discriminate|].
  repeat constructor.
Qed.
