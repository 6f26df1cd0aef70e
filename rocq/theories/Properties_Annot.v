(** Property theorems C65: annotations, in the compiler and in the reflection
    API.

    Reading guide. An [entity] is a node, a field or an enumerant with its own
    annotations; [first_of cls l r] says that [r] is the first annotation of
    [l] whose id is [cls] (None: there is none). *)
From Coq Require Import Strings.String.
From Verif Require Import Base Spec BaseFacts Ptr Segment Struct Case CaseFacts Enum Ctor Const Annot.
From Coq Require Import Lists.List ZifyBool.
Local Notation length := Datatypes.length.

Definition first_of (cls : Z) (l : list ann) (r : option ann) : Prop :=
  match r with
  | None => forall a, In a l -> an_id a <> cls
  | Some a => exists before after, l = before ++ a :: after /\ an_id a = cls /\
                                   forall b, In b before -> an_id b <> cls
  end.
Definition own (e : entity) : list ann := match e_anns e with Some l => l | None => [] end.

Lemma first_with_spec cls l : first_of cls l (first_with cls l).
Proof.
  induction l as [|a l IH]; cbn [first_with]; [intros b []|].
  destruct (Z.eqb_spec (an_id a) cls) as [E|N].
  - exists [], l. split; [reflexivity|]. split; [exact E|]. intros b [].
  - destruct (first_with cls l) as [x|]; cbn [first_of] in *.
    + destruct IH as (b & c & -> & Hx & Hb). exists (a :: b), c. split; [reflexivity|]. split; [exact Hx|].
      intros y [<-|Hy]; auto.
    + intros b [<-|Hb]; auto.
Qed.
Lemma first_with_app cls l k : first_with cls (l ++ k) =
  match first_with cls l with Some a => Some a | None => first_with cls k end.
Proof. induction l as [|a l IH]; cbn [app first_with]; [reflexivity|]. destruct (an_id a =? cls); auto. Qed.

(** ** Reflection *)

(** The calls of a user, and their answers *)
Inductive call := CNode (t : target) | CGet (t : target) (cls : Z) | CHas (t : target) (cls : Z).
Inductive answer := ANode (r : res entity) | AGet (r : res gval) | AHas (r : res bool).

Definition do_call (r : rdata) (c : call) : rdata * answer :=
  match c with
  | CNode t => let (r, a) := get_node r t in (r, ANode a)
  | CGet t cls => let (r, a) := get_annotation r t cls in (r, AGet a)
  | CHas t cls => let (r, a) := has_annotation r t cls in (r, AHas a)
  end.
Fixpoint do_calls (r : rdata) (l : list call) : list answer :=
  match l with
  | [] => []
  | c :: l => let (r, a) := do_call r c in a :: do_calls r l
  end.

(** What a target is, in a schema with these nodes: the last node with the
    id; KeyError when there is none; AttributeError when the object is not a
    generated one. *)
Definition last_node (nodes : list node) (id : Z) (r : res entity) : Prop :=
  (exists before after e, nodes = before ++ (id, e) :: after /\ (forall e', ~ In (id, e') after) /\ r = Ok e) \/
  ((forall e, ~ In (id, e) nodes) /\ r = Err KeyError).
Definition found (nodes : list node) (t : target) (r : res entity) : Prop :=
  match t with
  | ByInt id | ByClass id => last_node nodes id r
  | Other => r = Err AttributeError
  | Entity e => r = Ok e
  end.

(** The right answer to each call, as a function of the schema only *)
Definition right (nodes : list node) (c : call) (a : answer) : Prop :=
  match c, a with
  | CNode (Entity e), ANode r => last_node nodes (class_id e) r
  | CNode t, ANode r => found nodes t r
  | CHas t cls, AHas r =>
      exists e, found nodes t e /\
        match e with
        | Err x => r = Err x
        | Ok e => exists b, r = Ok b /\ (b = true <-> exists a, In a (own e) /\ an_id a = cls)
        end
  | CGet t cls, AGet r =>
      exists e, found nodes t e /\
        match e with
        | Err x => r = Err x
        | Ok e => exists a, first_of cls (own e) a /\
                    r = match a with Some a => as_pyobj (an_value a) | None => Err KeyError end
        end
  | _, _ => False
  end.

Lemma node_get_spec nodes id :
  last_node nodes id (match node_get nodes id with Some e => Ok e | None => Err KeyError end).
Proof.
  induction nodes as [|[i e] l IH]; cbn [node_get].
  - right. split; [intros e []|reflexivity].
  - destruct IH as [(b & c & e' & -> & H & E)|[H E]].
    + left. destruct (node_get _ id) as [x|]; [|discriminate]. apply ok_inj in E. subst x.
      exists ((i, e) :: b), c, e'. auto.
    + destruct (node_get l id) as [x|]; [discriminate|]. destruct (Z.eqb_spec i id) as [->|N].
      * left. exists [], l, e. auto.
      * right. split; [|reflexivity]. intros e' [X|X]; [congruence|exact (H e' X)].
Qed.

(** The states of the API before and after any call *)
Definition reach (nodes : list node) (r : rdata) : Prop :=
  rd_build r = Ok nodes /\ (rd_m r = None \/ rd_m r = Some (nodes, [])).

Lemma module_reach nodes r : reach nodes r ->
  exists r', rd_module r = (r', Ok (nodes, [])) /\ reach nodes r'.
Proof.
  intros [B [M|M]]; unfold rd_module; rewrite M.
  - rewrite B. eexists. split; [reflexivity|]. split; [reflexivity|]. right. reflexivity.
  - exists r. split; [reflexivity|]. split; auto.
Qed.
Lemma has_empty e cls : m_has_annotation [] e cls = ([], first_with cls (own e)).
Proof. unfold m_has_annotation, own. destruct (e_key e), (e_anns e); reflexivity. Qed.

Lemma node_reach nodes r t : reach nodes r ->
  exists r' a, get_node r t = (r', a) /\ reach nodes r' /\
    match t with Entity e => last_node nodes (class_id e) a | _ => found nodes t a end.
Proof.
  intros R. unfold get_node. destruct (module_reach _ _ R) as (r' & -> & R').
  destruct t; cbn [fst bind];
    try (eexists; eexists; split; [reflexivity|]; split; [exact R'|]; apply node_get_spec).
  exists r, (Err AttributeError). split; [reflexivity|]. split; [exact R|reflexivity].
Qed.
Lemma find_reach nodes r t cls : reach nodes r ->
  exists r' a e, find_annotation r t cls = (r', a) /\ reach nodes r' /\ found nodes t e /\
    a = match e with Err x => Err x | Ok e => Ok (first_with cls (own e)) end.
Proof.
  intros R. unfold find_annotation.
  assert (Q : exists r1 e, (match t with Entity e => (r, Ok e) | _ => get_node r t end) = (r1, e) /\
                           reach nodes r1 /\ found nodes t e).
  { pose proof (node_reach nodes r t R) as (r1 & a & G & R1 & F).
    destruct t as [id|id| |e]; try (exists r1, a; auto; fail).
    exists r, (Ok e). split; [reflexivity|]. split; [exact R|reflexivity]. }
  destruct Q as (r1 & e & -> & R1 & F). destruct e as [e|x].
  - destruct (module_reach _ _ R1) as (r2 & -> & R2). rewrite has_empty.
    eexists. eexists. exists (Ok e). split; [reflexivity|]. split; [|auto].
    split; [exact (proj1 R2)|]. right. reflexivity.
  - exists r1, (Err x), (Err x). auto.
Qed.
Lemma call_reach nodes r c : reach nodes r ->
  exists r' a, do_call r c = (r', a) /\ reach nodes r' /\ right nodes c a.
Proof.
  intros R. destruct c as [t|t cls|t cls]; cbn [do_call].
  - destruct (node_reach nodes r t R) as (r' & a & -> & R' & F). exists r', (ANode a).
    split; [reflexivity|]. split; [exact R'|]. destruct t; exact F.
  - unfold get_annotation. destruct (find_reach nodes r t cls R) as (r' & a & e & -> & R' & F & ->).
    eexists. eexists. split; [reflexivity|]. split; [exact R'|]. cbn [right]. exists e. split; [exact F|].
    destruct e as [e|x]; cbn [bind]; [|reflexivity].
    eexists. split; [apply first_with_spec|reflexivity].
  - unfold has_annotation. destruct (find_reach nodes r t cls R) as (r' & a & e & -> & R' & F & ->).
    eexists. eexists. split; [reflexivity|]. split; [exact R'|]. cbn [right]. exists e. split; [exact F|].
    destruct e as [e|x]; cbn [bind]; [|reflexivity].
    eexists. split; [reflexivity|]. pose proof (first_with_spec cls (own e)) as S1.
    destruct (first_with cls (own e)) as [a|]; cbn [first_of] in S1.
    + split; [|reflexivity]. intros _. destruct S1 as (b & c & -> & H & _). exists a. split; [|exact H].
      apply in_or_app. right. left. reflexivity.
    + split; [discriminate|]. intros (a & I & H). exfalso. exact (S1 a I H).
Qed.

(** C65a. Whatever was asked before, every answer of the reflection API is
    the right one: queries do not influence each other. *)
Theorem C65_reflection_answers : forall nodes calls,
  Forall2 (right nodes) calls (do_calls {| rd_build := Ok nodes; rd_m := None |} calls).
Proof.
  intros nodes calls.
  assert (G : forall r, reach nodes r -> Forall2 (right nodes) calls (do_calls r calls)).
  { induction calls as [|c l IH]; intros r R; cbn [do_calls]; [constructor|].
    destruct (call_reach nodes r c R) as (r' & a & -> & R' & H). constructor; [exact H|]. apply IH. exact R'. }
  apply G. split; [reflexivity|]. left. reflexivity.
Qed.
Print Assumptions C65_reflection_answers.

(** When the schema cannot be compiled, every query raises its exception
    again (an object that is not a generated one is refused before that). *)
Definition needs_module (c : call) : bool :=
  match c with CNode Other | CGet Other _ | CHas Other _ => false | _ => true end.
Definition raised (c : call) (x : exn) (a : answer) : Prop :=
  a = match c with
      | CNode _ => ANode (Err x) | CGet _ _ => AGet (Err x) | CHas _ _ => AHas (Err x)
      end.
Theorem C65_reflection_broken : forall x calls,
  Forall2 (fun c a => raised c (if needs_module c then x else AttributeError) a)
    calls (do_calls {| rd_build := Err x; rd_m := None |} calls).
Proof.
  intros x calls. induction calls as [|c l IH]; cbn [do_calls]; [constructor|].
  assert (Q : exists a, do_call {| rd_build := Err x; rd_m := None |} c = ({| rd_build := Err x; rd_m := None |}, a) /\
                        raised c (if needs_module c then x else AttributeError) a).
  { destruct c as [t|t cls|t cls]; destruct t; eexists; (split; [reflexivity|]); reflexivity. }
  destruct Q as (a & -> & H). constructor; assumption.
Qed.
Print Assumptions C65_reflection_broken.

(** ** The compiler *)

(** The compiler registers annotations on behalf of other entities (the
    $Py.key of a group field, on the group) and asks for annotations, in any
    order. *)
Inductive hop := Reg (k : ekey) (a : ann) | Ask (e : entity) (cls : Z).
Fixpoint after (x : extra) (h : list hop) : res extra :=
  match h with
  | [] => Ok x
  | Reg k a :: h => do x <- register_extra_annotation x k a; after x h
  | Ask e cls :: h => after (fst (m_has_annotation x e cls)) h
  end.

(** Same entity *)
Definition same (k k' : ekey) : Prop := k = k' /\ k <> KUnhashable.
(** The annotations registered for [k], in order *)
Inductive regs (k : ekey) : list hop -> list ann -> Prop :=
| regs_nil : regs k [] []
| regs_hit : forall k' a h l, same k k' -> regs k h l -> regs k (Reg k' a :: h) (a :: l)
| regs_miss : forall k' a h l, ~ same k k' -> regs k h l -> regs k (Reg k' a :: h) l
| regs_ask : forall e cls h l, regs k h l -> regs k (Ask e cls :: h) l.

(** The entities asked for under the key [k] are one entity. *)
Definition one_entity (k : ekey) (h : list hop) (e : entity) : Prop :=
  forall e' cls, In (Ask e' cls) h -> same (e_key e') k -> own e' = own e.

Lemma key_eqb_spec k k' : key_eqb k k' = true <-> same k k'.
Proof.
  unfold same. destruct k, k'; cbn [key_eqb]; split; try discriminate; try (intros [E N]; congruence).
  - intros H. apply Z.eqb_eq in H. subst. split; [reflexivity|discriminate].
  - intros [E _]. injection E as <-. apply Z.eqb_refl.
  - intros H. apply andb_prop in H. destruct H as [H1 H2]. apply str_eqb_spec in H1. apply Z.eqb_eq in H2. subst.
    split; [reflexivity|discriminate].
  - intros [E _]. injection E as <- <-. apply andb_true_intro. split; [apply str_eqb_spec; reflexivity|apply Z.eqb_refl].
Qed.
Lemma same_sym k k' : same k k' -> same k' k.
Proof. intros [-> N]. split; [reflexivity|exact N]. Qed.
Lemma same_trans a b c : same a b -> same b c -> same a c.
Proof. intros [-> N] [-> _]. split; [reflexivity|exact N]. Qed.

Lemma get_set x k l k' : k <> KUnhashable ->
  ex_get (ex_set x k l) k' = if key_eqb k' k then Some l else ex_get x k'.
Proof.
  intros N. induction x as [|[k1 l1] x IH]; cbn [ex_set ex_get].
  - reflexivity.
  - destruct (key_eqb k k1) eqn:E; cbn [ex_get].
    + apply key_eqb_spec in E. destruct E as [<- _]. destruct (key_eqb k' k); reflexivity.
    + rewrite IH. destruct (key_eqb k' k1) eqn:E1; [|reflexivity].
      destruct (key_eqb k' k) eqn:E2; [|reflexivity]. exfalso.
      apply key_eqb_spec in E1, E2. apply Bool.not_true_iff_false in E. apply E, key_eqb_spec.
      exact (same_trans _ _ _ (same_sym _ _ E2) E1).
Qed.
Lemma get_unhashable x : ex_get x KUnhashable = None.
Proof. induction x as [|[k l] x IH]; cbn [ex_get key_eqb]; auto. Qed.

(** What is stored for a key, after the registrations [rs] and any number of
    queries: nothing before the first registration, then the registrations in
    order with copies of the own annotations after the first one. *)
Inductive stored (o : list ann) : list ann -> option (list ann) -> Prop :=
| st_none : stored o [] None
| st_first : forall a, stored o [a] (Some [a])
| st_more : forall rs l a, stored o rs (Some l) -> stored o (rs ++ [a]) (Some (l ++ [a]))
| st_own : forall rs l, stored o rs (Some l) -> stored o rs (Some (l ++ o)).

Lemma after_app x h1 h2 : after x (h1 ++ h2) = (do x <- after x h1; after x h2).
Proof.
  revert x. induction h1 as [|[k a|e cls] h1 IH]; intros x; cbn [app after]; [reflexivity| |apply IH].
  destruct (register_extra_annotation x k a); cbn [bind]; [apply IH|reflexivity].
Qed.
Lemma regs_app k h1 h2 l : regs k (h1 ++ h2) l -> exists l1 l2, l = l1 ++ l2 /\ regs k h1 l1 /\ regs k h2 l2.
Proof.
  revert l. induction h1 as [|o h1 IH]; intros l H.
  - exists [], l. split; [reflexivity|]. split; [constructor|exact H].
  - inversion H as [|k' a h l' S1 R|k' a h l' S1 R|e cls h l' R]; subst.
    + destruct (IH _ R) as (l1 & l2 & -> & R1 & R2). exists (a :: l1), l2.
      split; [reflexivity|]. split; [constructor; assumption|exact R2].
    + destruct (IH _ R) as (l1 & l2 & -> & R1 & R2). exists l1, l2.
      split; [reflexivity|]. split; [apply regs_miss; assumption|exact R2].
    + destruct (IH _ R) as (l1 & l2 & -> & R1 & R2). exists l1, l2.
      split; [reflexivity|]. split; [apply regs_ask; assumption|exact R2].
Qed.

Lemma after_stored k e : forall h x rs, after [] h = Ok x -> regs k h rs -> one_entity k h e ->
  stored (own e) rs (ex_get x k).
Proof.
  induction h as [|o h IH] using rev_ind; intros x rs A R O.
  - apply ok_inj in A. subst x. inversion R; subst. constructor.
  - rewrite after_app in A. destruct (after [] h) as [x0|] eqn:A0; [|discriminate]. cbn [bind] in A.
    destruct (regs_app _ _ _ _ R) as (r1 & r2 & -> & R1 & R2).
    assert (O1 : one_entity k h e).
    { intros e' cls I. apply O with cls. apply in_or_app. left. exact I. }
    specialize (IH x0 r1 eq_refl R1 O1).
    destruct o as [k' a|e' cls]; cbn [after] in A.
    + destruct (register_extra_annotation x0 k' a) as [x1|] eqn:G; [|discriminate]. cbn [bind] in A.
      apply ok_inj in A. subst x1. unfold register_extra_annotation in G.
      assert (N : k' <> KUnhashable) by (intros ->; discriminate).
      assert (G' : x = ex_set x0 k' (match ex_get x0 k' with Some l => l | None => [] end ++ [a])).
      { destruct k'; [| |congruence]; apply ok_inj in G; symmetry; exact G. }
      rewrite G', get_set by exact N. clear G G'.
      inversion R2 as [|k2 a2 h2 l2 S2 R3|k2 a2 h2 l2 S2 R3|]; subst; inversion R3; subst.
      * destruct S2 as [<- S2]. replace (key_eqb k k) with true by (symmetry; apply key_eqb_spec; split; auto).
        destruct (ex_get x0 k) as [l|] eqn:E; [apply st_more; exact IH|].
        inversion IH; subst. apply st_first.
      * replace (key_eqb k k') with false by (symmetry; apply Bool.not_true_iff_false; rewrite key_eqb_spec; exact S2).
        rewrite app_nil_r. exact IH.
    + inversion R2 as [| | |e2 c2 h2 l2 R3]; subst. inversion R3; subst. rewrite app_nil_r.
      apply ok_inj in A. subst x. unfold m_has_annotation.
      destruct (match e_key e' with KUnhashable => None | k0 => ex_get x0 k0 end) as [l|] eqn:G.
      2:{ destruct (e_anns e'); cbn [fst]; exact IH. }
      assert (N : e_key e' <> KUnhashable) by (intros E; rewrite E in G; discriminate).
      assert (G' : ex_get x0 (e_key e') = Some l) by (destruct (e_key e'); [exact G|exact G|congruence]).
      destruct (e_anns e') as [o|] eqn:EA; cbn [fst]; [|exact IH].
      rewrite get_set by exact N. destruct (key_eqb k (e_key e')) eqn:K; [|exact IH].
      apply key_eqb_spec in K.
      assert (OE : own e' = own e).
      { apply O with cls; [apply in_or_app; right; left; reflexivity|exact (same_sym _ _ K)]. }
      unfold own in OE at 1. rewrite EA in OE. rewrite OE.
      destruct K as [K _]. rewrite <- K in G'. rewrite G' in IH. apply st_own. exact IH.
Qed.

Lemma asked x e cls : snd (m_has_annotation x e cls) =
  first_with cls (match ex_get x (e_key e) with Some l => l | None => [] end ++ own e).
Proof.
  unfold m_has_annotation, own.
  destruct (e_key e) eqn:K; rewrite ?get_unhashable; destruct (e_anns e); cbn [snd]; rewrite ?app_nil_r; reflexivity.
Qed.

Lemma stored_in o rs l : stored o rs l ->
  forall a, In a (match l with Some l => l | None => [] end ++ o) <-> In a (rs ++ o).
Proof.
  induction 1 as [|a|rs l a H IH|rs l H IH]; intros b; rewrite ?in_app_iff in *; try tauto.
  - specialize (IH b). rewrite in_app_iff in IH. rewrite !in_app_iff in *. cbn [In]. tauto.
  - specialize (IH b). rewrite !in_app_iff in *. tauto.
Qed.
Lemma stored_one o rs l : stored o rs l -> (length rs <= 1)%nat ->
  forall cls, first_with cls (match l with Some l => l | None => [] end ++ o) = first_with cls (rs ++ o).
Proof.
  induction 1 as [|a|rs l a H IH|rs l H IH]; intros L cls; try reflexivity.
  - exfalso. rewrite app_length in L. cbn [length] in L.
    assert (rs = []) by (destruct rs; [reflexivity|cbn [length] in L; lia]). subst rs.
    clear -H. remember (@nil ann) as r. remember (Some l) as m. revert l Heqm.
    induction H; intros l' E; try discriminate.
    + destruct rs; discriminate.
    + subst. exact (IHstored eq_refl l eq_refl).
  - rewrite <- IH by exact L. rewrite !first_with_app. destruct (first_with cls l), (first_with cls o); reflexivity.
Qed.

(** C65b. After any history, an entity for which at most one annotation was
    registered has the registered annotation and its own ones, first come
    first served; asking never changes a later answer. *)
Theorem C65_first_annotation : forall h x e cls rs,
  after [] h = Ok x -> regs (e_key e) h rs -> (length rs <= 1)%nat -> one_entity (e_key e) h e ->
  first_of cls (rs ++ own e) (snd (m_has_annotation x e cls)).
Proof.
  intros h x e cls rs A R L O. rewrite asked.
  rewrite (stored_one _ _ _ (after_stored (e_key e) e h x rs A R O) L). apply first_with_spec.
Qed.
Print Assumptions C65_first_annotation.

(** With more registrations the answer still has the right id and is one of
    those registered or owned, and None is answered only if there is none. *)
Theorem C65_annotation_present : forall h x e cls rs,
  after [] h = Ok x -> regs (e_key e) h rs -> one_entity (e_key e) h e ->
  match snd (m_has_annotation x e cls) with
  | Some a => In a (rs ++ own e) /\ an_id a = cls
  | None => forall a, In a (rs ++ own e) -> an_id a <> cls
  end.
Proof.
  intros h x e cls rs A R O. rewrite asked.
  pose proof (stored_in _ _ _ (after_stored (e_key e) e h x rs A R O)) as I.
  set (l := match ex_get x (e_key e) with Some l => l | None => [] end ++ own e) in *.
  pose proof (first_with_spec cls l) as F. destruct (first_with cls l) as [a|]; cbn [first_of] in F.
  - destruct F as (b & c & E & H & _). split; [|exact H]. apply I. rewrite E. apply in_or_app. right. left. reflexivity.
  - intros a Ia. apply F, I. exact Ia.
Qed.
Print Assumptions C65_annotation_present.

(** ... but which one it is then depends on the queries in between: the own
    annotation [b], or the second registered [c]. *)
Theorem C65_second_registration_refuted : forall k a b c, k <> KUnhashable ->
  an_id a <> an_id b -> an_id c = an_id b -> b <> c ->
  exists e h1 h2 x1 x2, e_key e = k /\ own e = [b] /\
    h1 = [Reg k a; Reg k c] /\ h2 = [Reg k a; Ask e (an_id b); Reg k c] /\
    after [] h1 = Ok x1 /\ after [] h2 = Ok x2 /\
    snd (m_has_annotation x1 e (an_id b)) = Some c /\ snd (m_has_annotation x2 e (an_id b)) = Some b.
Proof.
  intros k a b c N AB CB BC.
  assert (K : key_eqb k k = true) by (apply key_eqb_spec; split; auto).
  exists (mkent k (Some [b])).
  assert (R : forall x y, register_extra_annotation x k y =
                Ok (ex_set x k (match ex_get x k with Some l => l | None => [] end ++ [y])))
    by (intros; destruct k; [reflexivity|reflexivity|congruence]).
  assert (H : forall l cls, m_has_annotation [(k, l)] (mkent k (Some [b])) cls
                = ([(k, l ++ [b])], first_with cls (l ++ [b]))).
  { intros l cls. unfold m_has_annotation. cbn [e_key e_anns].
    destruct k; [| |congruence]; cbn [ex_get ex_set]; rewrite K; reflexivity. }
  do 4 eexists. split; [reflexivity|]. split; [reflexivity|]. split; [reflexivity|]. split; [reflexivity|].
  split; [cbn [after]; rewrite R; cbn [ex_get ex_set bind]; rewrite R; cbn [ex_get ex_set]; rewrite K; reflexivity|].
  split; [cbn [after]; rewrite R; cbn [ex_get ex_set bind app]; rewrite H; cbn [fst]; rewrite R;
          cbn [ex_get ex_set]; rewrite K; reflexivity|].
  cbn [app]. rewrite !H. cbn [snd app first_with].
  destruct (Z.eqb_spec (an_id a) (an_id b)); [congruence|]. rewrite CB, Z.eqb_refl. auto.
Qed.
Print Assumptions C65_second_registration_refuted.

(** Examples: a node with two annotations (the third constant value of
    Properties_Const's request, and the fourth), asked for repeatedly, and a
    group whose key annotation was registered. *)
From Verif Require Import Properties_Const.
Definition ann7 := mkann 7 (req_val 2).
Definition ann9 := mkann 9 (req_val 3).
Definition ent1 := mkent (KNode 100) (Some [ann7; ann9]).
Example C65_ex_reflection :
  do_calls {| rd_build := Ok [(100, ent1)]; rd_m := None |}
    [CGet (ByInt 100) 9; CHas (ByClass 100) 7; CGet (ByInt 5) 9; CHas Other 7; CGet (Entity ent1) 8; CGet (ByInt 100) 9]
  = [AGet (as_pyobj (req_val 3)); AHas (Ok true); AGet (Err KeyError); AHas (Err AttributeError); AGet (Err KeyError);
     AGet (as_pyobj (req_val 3))] /\
  (exists g, as_pyobj (req_val 3) = Ok g).
Proof. split; [vm_compute; reflexivity|]. vm_compute. eexists. reflexivity. Qed.
Example C65_ex_group : exists x,
  after [] [Ask ent1 9; Reg (KNode 100) (mkann 3 (req_val 2)); Ask ent1 9; Ask ent1 3] = Ok x /\
  regs (KNode 100) [Ask ent1 9; Reg (KNode 100) (mkann 3 (req_val 2)); Ask ent1 9; Ask ent1 3] [mkann 3 (req_val 2)] /\
  one_entity (KNode 100) [Ask ent1 9; Reg (KNode 100) (mkann 3 (req_val 2)); Ask ent1 9; Ask ent1 3] ent1 /\
  snd (m_has_annotation x ent1 3) = Some (mkann 3 (req_val 2)) /\ snd (m_has_annotation x ent1 7) = Some ann7.
Proof.
  eexists. split; [reflexivity|]. split.
  { apply regs_ask, regs_hit; [split; [reflexivity|discriminate]|]. apply regs_ask, regs_ask, regs_nil. }
  split.
  { intros e' cls I _. cbn [In] in I. repeat destruct I as [I|I]; try contradiction; try discriminate; congruence. }
  split; reflexivity.
Qed.
