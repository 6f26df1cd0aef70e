(** The parts of a module, from a schema that can be read. *)
From Coq Require Import Strings.String.
From Verif Require FloatBits.
From Verif Require Import Base BaseFacts Spec CopyList Case CaseFacts Loader List PyExpr Ctor PySyntax PySyntaxFacts PyPrint PyRun GenRun GenText ClassText ReprText KeyText TextSpec ClassSpec GenTextFacts
  ReprTextFacts ClassFacts Properties_ClassText Properties_KeyText PyModule PyModuleFacts ModuleText ModuleTextFacts ModuleRead PyModuleRun ModuleRunFacts ModuleSpec.
From Coq Require Import Lists.List Permutation.
Local Notation length := Datatypes.length.
Local Open Scope string_scope.
Local Open Scope list_scope.
Local Open Scope Z_scope.

Lemma all_nodes_post l : all_nodes l = nodes_of l. Proof. reflexivity. Qed.
Lemma inside_child s ch n c : In (NStruct s ch) (post n) -> In c ch -> In c (post n).
Proof.
  assert (Self : forall c, In c (post c)) by (intros []; cbn [post]; try apply in_or_app; cbn; auto).
  intros H I. revert H. induction n as [s0 ch0 IH|a b d e|a b|a b d] using mnode_ind2; cbn [post]; intros H.
  - apply in_or_app. apply in_app_or in H. destruct H as [H|[E|[]]].
    + left. induction IH as [|x r P F IH]; [exact H|]. apply in_or_app. apply in_app_or in H. destruct H as [H|H]; [left; now apply P|right; now apply IH].
    + left. injection E as -> ->. clear IH. induction ch as [|x r IH]; [destruct I|]. apply in_or_app. destruct I as [<-|I]; [left; apply Self|right; now apply IH].
  - destruct H as [H|[]]; discriminate H.
  - destruct H as [H|[]]; discriminate H.
  - destruct H as [H|[]]; discriminate H.
Qed.
Lemma node_child nodes s ch c : In (NStruct s ch) (nodes_of nodes) -> In c ch -> In c (nodes_of nodes).
Proof.
  intros H I. apply in_flat_map in H. destruct H as (n & N & H). apply in_flat_map. exists n. split; [exact N|]. now apply inside_child with (s := s) (ch := ch).
Qed.
Lemma node_top nodes n : In n nodes -> In n (nodes_of nodes).
Proof. intros I. apply in_flat_map. exists n. split; [exact I|]. destruct n; cbn [post]; try apply in_or_app; cbn; auto. Qed.

(** the members of the union *)
Lemma items_ok w fl nm cls c g sn : class_described w fl nm cls c g sn ->
  exists ms, Permutation ms (filter is_member (sn_fields sn)) /\ union_items (sn_fields sn) = map (fun f => lit (f_name f)) ms /\
    map f_disc ms = map (fun i => Some (Z.of_nat i)) (seq 0 (length (filter is_member (sn_fields sn)))) /\ Forall (fun f => py_name (lit (f_name f))) ms.
Proof.
  intros C. destruct (mc_union _ _ _ _ _ _ _ C) as (Nu & _). destruct (union_members (sn_fields sn) Nu) as (ms & P & E1 & E2).
  exists ms. repeat (split; [assumption|]). apply Forall_forall. intros f I. apply (Permutation_in f P) in I. apply filter_In in I.
  destruct (mc_fields _ _ _ _ _ _ _ C f (proj1 I)) as (c' & Hf). apply Hf.
Qed.

Section read.
  Context (w : world) (fl : Z -> str) (nm : str -> string -> string -> names) (val : str -> pexp).
  Lemma readable_ref nested n : node_readable w fl nm val n -> ref_ok val nested n.
  Proof.
    destruct n as [s ch|short n id items|n v|n id ts]; cbn [node_readable ref_ok].
    - intros (A & B & _). split; assumption.
    - intros (A & B & _). split; assumption.
    - intros (A & B & C & _). split; [exact A|split; assumption].
    - auto.
  Qed.
  Definition the_body (p : mnode * list pstmt) : Prop :=
    match fst p with
    | NStruct s _ => block 4 (class_text fl (nm (sd_name s)) 4 (sd_name s) (sd_group s) (sd_sn s)) (snd p) /\
        Permutation (defs (snd p)) (class_methods (sd_group s) (sd_sn s)) /\ forallb is_def (snd p) = true
    | _ => True
    end.
  Lemma bodies l : (forall n, In n l -> node_readable w fl nm val n) -> exists bs, map fst bs = l /\ Forall the_body bs.
  Proof.
    induction l as [|n l IH]; intros H; [exists []; split; [reflexivity|constructor]|]. destruct IH as (bs & E & F); [intros x X; apply H; now right|].
    assert (X : exists b, the_body (n, b)).
    { specialize (H n (or_introl eq_refl)). destruct n as [s ch|short n id items|n v|n id ts]; try (exists []; exact Logic.I).
      destruct H as (_ & _ & _ & _ & (c & C) & _). destruct (class_block w fl _ 4 _ c _ _ C) as (b & B). exists b. exact B. }
    destruct X as (b & B). exists ((n, b) :: bs). cbn [map fst]. rewrite E. split; [reflexivity|constructor; assumption].
  Qed.
  Lemma readable_ok nodes n : (forall n, In n (nodes_of nodes) -> node_readable w fl nm val n) -> In n (nodes_of nodes) -> node_ok val n.
  Proof.
    intros A I. pose proof (A n I) as H. destruct n as [s ch|short n id items|n v|n id ts]; cbn [node_ok]; [|destruct H as (_ & B & C & D); auto|exact Logic.I|exact H].
    destruct H as (B & C & D & E & (c & Cd) & F & G). split; [exact C|]. split; [exact D|]. split; [exact E|]. split; [|split; [|split; [exact F|exact G]]].
    - unfold sd_items. destruct (sn_utag (sd_sn s)); [|constructor]. destruct (items_ok _ _ _ _ _ _ _ Cd) as (ms & _ & Ei & _ & Fm). rewrite Ei, Forall_map.
      eapply Forall_impl; [|exact Fm]. intros f P. apply plain_ident, P.
    - intros x X. apply readable_ref, A. now apply node_child with (s := s) (ch := ch).
  Qed.
  Lemma module_read h nodes : readable w fl nm val h nodes ->
    exists bs, map fst bs = nodes_of nodes /\ Forall the_body bs /\ mblock (module_text fl nm h nodes) (module_ast val h nodes bs).
  Proof.
    intros (Hh & A). destruct (bodies (nodes_of nodes) A) as (bs & E & F). exists bs. split; [exact E|]. split; [exact F|].
    apply module_block; [exact Hh|exact E| | |].
    - eapply Forall_impl; [|exact F]. intros [n b] T. unfold body_ok, the_body in *. cbn [fst snd] in *. destruct n; [apply T|exact Logic.I..].
    - intros n I. now apply readable_ok with (nodes := nodes).
    - intros n I. apply readable_ref, A. now apply node_top.
  Qed.
End read.
