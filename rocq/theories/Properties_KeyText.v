(** C83: the method that $Py.key adds to a class, as text: it is read as Python
    and gives the tuple of the attributes that the annotation names. *)
From Coq Require Import Strings.String.
From Verif Require FloatBits Names.
From Verif Require Import Base BaseFacts Spec Ptr Segment Builder Copy Struct List CopyList Case CaseFacts Loader Repr PyExpr
  Ctor PySyntax PySyntaxFacts PyPrint PyRun GenRun GenText ClassText TextSpec ClassSpec GenTextFacts GenTextRun GenGet GenGet2
  Properties_Text Properties_TextNew ClassFacts Properties_ClassText PyGroup KeyText.
From Coq Require Import Lists.List.
Local Notation length := Datatypes.length.
Local Open Scope string_scope.
Local Open Scope list_scope.
Local Open Scope Z_scope.

(** what the getters give, as items of a tuple; structs, groups and
    AnyPointers are not among the objects that the tuples of the runtime hold *)
Definition item_of (g : gval) : option pyval :=
  match g with
  | GNone => Some PNone
  | GInt z => Some (PInt z)
  | GBool b => Some (PBool b)
  | GF32 bits => Some (PFloat (FloatBits.to64 bits))
  | GF64 bits => Some (PFloat bits)
  | GBytes b => Some (PBytes b)
  | GList l => Some (PList l)
  | GObj _ | GAny _ => None
  end.
Definition holdable (t : ftype) : Prop := match t with TStruct | TAny => False | _ => True end.

(** the class [c] is made from its text, and the text of $Py.key(value) is part
    of its body *)
Record keyed_class (w : world) (fl : Z -> str) (nm : string -> string -> names) (k : nat) (cls c : str) (group : bool) (sn : struct_node)
    (fs : sfields) (value : str) : Prop := mkkeyed {
  kc_made : made_class w fl nm k cls c group sn;
  kc_fields : map snd fs = sn_fields sn;
  kc_text : exists text, key_text k fs value = Ok text /\ defines w c k text }.

(** ** Reading *)
Definition key_ast (l : list field) : list pstmt := [qReturn (xTup (map (fun f => xDot (xVar (lit "self")) (lit (f_name f))) l))].
Lemma args_dots l : args_text (map (fun f => lit "self." ++ lit (f_name f)) l) = join_with (lit ", ") (map sh (map (fun f => xDot (xVar (lit "self")) (lit (f_name f))) l)).
Proof. unfold args_text. f_equal. rewrite map_map. apply map_ext. intros f. rewrite sh_dot, sh_var. reflexivity. Qed.
Lemma key_block k l : l <> [] -> Forall (fun f => py_name (lit (f_name f))) l ->
  block k (key_method k l) [qDef None (lit "_key") [(lit "self", None)] (key_ast l)].
Proof.
  intros Ne N. unfold key_method. apply (blk_app k [_] _ [] [_]); [apply blk_blank|].
  rewrite !lns_cons, lns_nil, Nat.add_0_r.
  assert (B : block (k + 4) [ln (k + 4) (lit "return (" ++ args_text (map (fun f => lit "self." ++ lit (f_name f)) l) ++ lit ",)")] (key_ast l)).
  { apply ret_block.
    - cbn [wfx]. split; [destruct l; [contradiction|discriminate]|]. clear Ne. induction N as [|f l P N IH]; [exact Logic.I|].
      cbn [map]. split; [|exact IH]. split; [nm|]. split; [reflexivity|]. split; apply P.
    - rewrite sh_tup, args_dots. reflexivity. }
  exact (blk_def k (k + 4) None (lit "_key") [(lit "self", None)] _ (key_ast l) Logic.I ltac:(split; reflexivity) ltac:(apply Forall_cons; [split; [split; reflexivity|exact Logic.I]|apply Forall_nil]) Logic.I eq_refl ltac:(lia) ltac:(discriminate) B).
Qed.

Lemma mapM_members fs (names : list str) l : mapM (fun n => match field_get fs n with Some f => Ok f | None => Err KeyError end) names = Ok l ->
  length l = length names /\ forall f, In f l -> In f (map snd fs).
Proof.
  assert (G : forall n f, field_get fs n = Some f -> In f (map snd fs)).
  { intros n. induction fs as [|[m f0] fs IH]; intros f E; [discriminate E|]. cbn [field_get] in E. destruct (field_get fs n) as [x|].
    - injection E as <-. right. now apply IH.
    - destruct (str_eqb m n); [|discriminate E]. injection E as <-. now left. }
  revert l. induction names as [|n names IH]; intros l E; cbn [mapM] in E.
  - apply ok_inj in E. subst l. split; [reflexivity|intros f []].
  - destruct (field_get fs n) as [f|] eqn:F; [|discriminate E]. cbn [bind] in E. destruct (mapM _ names) as [r|]; [|discriminate E]. cbn [bind] in E.
    apply ok_inj in E. subst l. destruct (IH r eq_refl) as (A & B). split; [cbn; now rewrite A|]. intros x [<-|I]; [eapply G, F|now apply B].
Qed.
Lemma split_ne s : Loader.split 44 s <> [].
Proof.
  destruct s as [|c s]; cbn [Loader.split]; [discriminate|]. destruct (c =? 44); [discriminate|]. destruct (Loader.split 44 s); discriminate.
Qed.
Lemma key_members fs value l : key_fields fs value = Ok l -> (fs <> [] -> l <> []) /\ forall f, In f l -> In f (map snd fs).
Proof.
  unfold key_fields. destruct (negb _); [discriminate|]. intros E. apply mapM_members in E. destruct E as (E & M). split; [|exact M].
  intros Ne Z. subst l. cbn in E. destruct (str_eqb (strip value) [42]).
  - destruct fs; [contradiction|discriminate E].
  - unfold names_of in E. rewrite map_length in E. destruct (Loader.split 44 (strip value)) eqn:S; [now apply (split_ne (strip value))|discriminate E].
Qed.

(** The text is Python, if the struct has fields *)
Theorem C83_reads w fl nm k cls c group sn fs value text :
  class_described w fl nm cls c group sn -> map snd fs = sn_fields sn -> fs <> [] ->
  key_text k fs value = Ok text -> exists l, reads_as k text l /\ defs l = [lit "_key"].
Proof.
  intros C F Ne E. unfold key_text in E. destruct (key_fields fs value) as [l|] eqn:K; [|discriminate E]. cbn [bind] in E. apply ok_inj in E. subst text.
  destruct (key_members fs value l K) as (N & M). eexists. split; [eapply blk_reads, key_block|reflexivity].
  - now apply N.
  - apply Forall_forall. intros f I. apply M in I. rewrite F in I. destruct (mc_fields _ _ _ _ _ _ _ C f I) as (c' & P & _). exact P.
Qed.
Print Assumptions C83_reads.

(** ** obj._key() *)
Fixpoint all_items (l : list gval) : option (list pyval) :=
  match l with
  | [] => Some []
  | g :: r => match item_of g, all_items r with Some v, Some vs => Some (v :: vs) | _, _ => None end
  end.
Lemma seen_item o c' g v s x : seen o c' g v s -> item_of g = Some x -> v = XV x.
Proof. destruct g; cbn; intros S E; try discriminate E; injection E as <-; exact S. Qed.
Lemma read_item o t off d g : holdable t -> read_slot o t off d = Ok g -> exists x, item_of g = Some x.
Proof.
  destruct t; cbn [holdable read_slot]; intros H E; try destruct H;
    repeat (match type of E with (do _ <- ?m; _) = _ => destruct m; [|discriminate E]; cbn [bind] in E
                                | (let (_, _) := ?m in _) = _ => destruct m
                                | (if ?b then _ else _) = _ => destruct b
                                | match ?m with _ => _ end = _ => destruct m; [|try discriminate E] end; cbn [bind] in E);
    try discriminate E; injection E as <-; try (eexists; reflexivity); repeat match goal with |- context [match ?m with _ => _ end] => destruct m end; eexists; reflexivity.
Qed.

(** Called on any object: the tuple of the attributes named by the annotation,
    in its order, or the exception of the first of them that raises one. *)
Theorem C83_key w fl nm k cls c group sn fs value o depth s l :
  keyed_class w fl nm k cls c group sn fs value -> key_fields fs value = Ok l -> fs <> [] ->
  (forall f, In f l -> match f with FSlot _ _ _ t _ _ _ => holdable t | FGroup _ _ _ _ _ _ => False end) ->
  match key_tuple o (sn_utag sn) l with
  | Ok gs => exists vs s', all_items gs = Some vs /\ calls_method w (S (S (S (S depth)))) (XObj c o) (lit "_key") [] [] s = Ok (XV (PSeq vs), s')
  | Err e => calls_method w (S (S (S (S depth)))) (XObj c o) (lit "_key") [] [] s = Err e
  end.
Proof.
  intros [C F (text & E & D)] K Ne H. unfold key_text in E. rewrite K in E. cbn [bind] in E. apply ok_inj in E. subst text.
  destruct (key_members fs value l K) as (N & M).
  assert (P : Forall (fun f => py_name (lit (f_name f))) l).
  { apply Forall_forall. intros f I. apply M in I. rewrite F in I. destruct (mc_fields _ _ _ _ _ _ _ (mc_described _ _ _ _ _ _ _ _ C) f I) as (c' & P & _). exact P. }
  pose proof (defined w c k _ _ _ _ _ _ D (key_block k l (N Ne) P) (or_introl eq_refl)) as Dk.
  unfold calls_method. rewrite (rt_attr_def w _ c o _ s _ _ Dk). cbn [bind]. unfold calls. cbn [map].
  rewrite (rt_call_def w _ c o _ s _ _ None [] [] Dk), call_self. unfold key_ast. rewrite rb_return.
  set (L := lit "self" :: _). set (e := set_var _ _ _).
  assert (Hs : local L e (lit "self") (XObj c o)) by (split; reflexivity). clearbody L e.
  assert (A : match mapM (get_field o (sn_utag sn)) l with
              | Ok gs => exists vs s', all_items gs = Some vs /\ ev_all (rt w (S (S (S depth)))) L e (map (fun f => xDot (xVar (lit "self")) (lit (f_name f))) l) s = Ok (map XV vs, s')
              | Err x => ev_all (rt w (S (S (S depth)))) L e (map (fun f => xDot (xVar (lit "self")) (lit (f_name f))) l) s = Err x
              end).
  { clear Dk D K N Ne P. revert s. induction l as [|f l IH]; intros s; [exists [], s; split; reflexivity|].
    assert (If : In f (sn_fields sn)) by (rewrite <- F; apply M; now left). pose proof (H f (or_introl eq_refl)) as T.
    destruct f as [n ord disc t off ex d|]; [|destruct T].
    destruct (C82_slot w fl nm k cls c group sn o n ord disc t off ex d depth s C If) as (c' & _ & G & _).
    cbn [mapM map ev_all f_name]. rewrite ev_dot, (ev_local _ _ _ _ _ _ _ Hs). cbn [bind get_field].
    destruct (get_slot o (sn_utag sn) (FSlot n ord disc t off ex d)) as [g|x] eqn:Eg; cbn [gives] in G; [|rewrite G; reflexivity].
    destruct G as (v & s1 & G & S). rewrite G. cbn [bind].
    assert (X : exists x, item_of g = Some x).
    { cbn [get_slot] in Eg. destruct (ensure_union _ _ _); [|discriminate Eg]. cbn [bind] in Eg. eapply read_item; eassumption. }
    destruct X as (x & X). apply (seen_item _ _ _ _ _ x S) in X as V. subst v.
    specialize (IH ltac:(intros q I; apply H; now right) ltac:(intros q I; apply M; now right) s1).
    destruct (mapM (get_field o (sn_utag sn)) l) as [gs|y]; [|rewrite IH; reflexivity].
    destruct IH as (vs & s2 & A & B). cbn [bind]. exists (x :: vs), s2. cbn [all_items map]. rewrite X, A, B. split; reflexivity. }
  unfold key_tuple. assert (T : forall xs s0, ev (rt w (S (S (S depth)))) L e (xTup xs) s0 = (do (vs, s) <- ev_all (rt w (S (S (S depth)))) L e xs s0; do vs <- x_tuple vs; Ok (XV (PSeq vs), s))).
  { intros xs s0. cbn [ev].
    assert (Z : forall l s, (fix all (l : list pexp) (s : st) : res (list xv * st) :=
      match l with [] => Ok ([], s) | a :: r => do (v, s) <- ev (rt w (S (S (S depth)))) L e a s; do (vs, s) <- all r s; Ok (v :: vs, s) end) l s = ev_all (rt w (S (S (S depth)))) L e l s).
    { clear. induction l as [|a l IH]; intros s; [reflexivity|]. cbn [ev_all]. destruct (ev (rt w (S (S (S depth)))) L e a s) as [[v s']|]; [|reflexivity]. cbn [bind]. rewrite IH. reflexivity. }
    rewrite Z. destruct (ev_all (rt w (S (S (S depth)))) L e xs s0) as [[vs s1]|]; [|reflexivity]. cbn [bind r_tuple rt]. destruct (x_tuple vs); reflexivity. }
  rewrite T. destruct (mapM (get_field o (sn_utag sn)) l) as [gs|x].
  - destruct A as (vs & s' & A & B). exists vs, s'. split; [exact A|]. rewrite B. cbn [bind].
    assert (Y : x_tuple (map XV vs) = Ok vs) by (clear; induction vs as [|v vs IH]; [reflexivity|cbn [map x_tuple]; rewrite IH; reflexivity]).
    rewrite Y. reflexivity.
  - rewrite A. reflexivity.
Qed.
Print Assumptions C83_key.

(** ** What goes wrong *)

(** A struct without fields with $Py.key("*"): what is written is
    return (,), which is not Python: the module cannot be imported *)
Theorem C83_no_fields_refuted : exists text, key_text 4 [] (lit "*") = Ok text /\
  text = [lit "    "; lit "    def _key(self):"; lit "        return (,)"] /\ forall k l, ~ reads_as k text l.
Proof.
  eexists. split; [reflexivity|]. split; [reflexivity|]. intros k l (toks & n & L & P).
  vm_compute in L. injection L as <-.
  destruct (Nat.eq_dec k 4) as [->|Nk].
  - do 40 (destruct n as [|n]; [vm_compute in P; discriminate P|]). vm_compute in P. discriminate P.
  - destruct n as [|n]; [discriminate P|]. cbn [p_block] in P. destruct (4 <? k)%nat eqn:A; [discriminate P|]. destruct (k <? 4)%nat eqn:B; [discriminate P|].
    apply Nat.ltb_ge in A, B. lia.
Qed.
Print Assumptions C83_no_fields_refuted.

(** struct { key :group $Py.nullable { isNull; value } } with $Py.key: the view
    of the group behind obj.key is obj._key, and that is the name of the method
    which $Py.key adds later: obj.key raises AttributeError, whatever the
    buffer *)
Theorem C83_nullable_key_refuted w k c o depth s fs value text :
  key_text k fs value = Ok text -> fs <> [] -> Forall (fun f => py_name (lit (f_name f))) (map snd fs) -> defines w c k text ->
  defines w c k (def_property k (lit "key") (nullable_body (lit "key"))) ->
  r_attr (rt w (S depth)) (XObj c o) (lit "key") s = Err AttributeError.
Proof.
  intros E Ne P D Dp. unfold key_text in E. destruct (key_fields fs value) as [l|] eqn:K; [|discriminate E]. cbn [bind] in E. apply ok_inj in E. subst text.
  destruct (key_members fs value l K) as (N & M).
  assert (Pl : Forall (fun f => py_name (lit (f_name f))) l) by (rewrite Forall_forall in *; intros f I; apply P, M, I).
  pose proof (defined w c k _ _ _ _ _ _ D (key_block k l (N Ne) Pl) (or_introl eq_refl)) as Dk.
  assert (B : block k (def_property k (lit "key") (nullable_body (lit "key"))) [qDef (Some (lit "property")) (lit "key") [(lit "self", None)] (nullable_ast (lit "key"))]).
  { apply property_block; [split; reflexivity|discriminate|]. now apply nullable_block. }
  rewrite (rt_attr_property w depth c o (lit "key") s _ _ (defined w c k _ _ _ _ _ _ Dp B (or_introl eq_refl))), call_self.
  unfold nullable_ast at 2. unfold set. rewrite rb_set. set (L := lit "self" :: _). set (e0 := set_var _ (lit "self") _).
  rewrite ev_dot, (ev_local w depth L e0 (lit "self") (XObj c o) s ltac:(split; reflexivity)). cbn [bind].
  change (lit "_" ++ lit "key") with (lit "_key"). rewrite (rt_attr_def w depth c o _ s _ _ Dk). cbn [bind].
  rewrite rb_if, ev_dot. set (e1 := set_var e0 (lit "g") _). rewrite (ev_local w depth L e1 (lit "g") (XMeth (XObj c o) (lit "_key")) s ltac:(split; reflexivity)). cbn [bind].
  destruct depth; reflexivity.
Qed.
Print Assumptions C83_nullable_key_refuted.
