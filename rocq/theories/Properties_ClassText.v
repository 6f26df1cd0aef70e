(** C82: a whole class is made from its text; no other hypothesis about its
    methods than that the schema gives no two of them the same name. *)
From Coq Require Import Strings.String.
From Verif Require FloatBits Names CtorSpec CtorProps ArgSpec.
From Verif Require Import Base BaseFacts Spec Ptr Segment Builder Copy Struct List CopyList Case CaseFacts Loader Repr PyExpr
  Ctor PySyntax PySyntaxFacts PyPrint PyRun GenRun GenText ClassText TextSpec ClassSpec GenTextFacts GenTextRun GenNew GenNew2 GenNew3 GenNew4 GenNew5 GenGet GenGet2
  Properties_Text Properties_TextNew ClassFacts.
From Coq Require Import Lists.List Permutation.
Local Notation length := Datatypes.length.
Local Open Scope string_scope.
Local Open Scope list_scope.
Local Open Scope Z_scope.

Section made.
  Context (w : world) (fl : Z -> str) (nm : string -> string -> names) (k : nat) (cls c : str) (group : bool) (sn : struct_node).

  Lemma field_part union f c' p : field_refers w fl nm union f c' -> In p (field_parts fl nm k f) -> part k p.
  Proof.
    intros (N & H) I. destruct f as [n o dc t off ex d|n o dc nl u fs]; cbn [f_name field_parts] in *.
    - destruct I as [<-|[]]. destruct (slot_block w fl k [] (nm "" n) n o dc t off ex d c' N H) as (x & y & z & B & _). eexists. split; [exact B|].
      split; destruct t; reflexivity.
    - destruct H as ((g & T & _) & _ & L). destruct (group_stmts fl k (nm "" n) n o dc nl u fs g N T) as (rest & lt & E & B). destruct nl.
      + destruct I as [<-|[]]. cbn [fst snd field_methods]. rewrite E. eexists. split; [exact B|]. split; reflexivity.
      + destruct B as (l1 & E1 & E2 & B). cbn [field_text] in E. rewrite <- E in E1. subst rest. apply app_inv_tail in E1. subst l1.
        destruct I as [<-|[<-|[]]]; cbn [fst snd].
        * eexists. split; [exact B|split; reflexivity].
        * destruct (L eq_refl) as (Nl & Nd & D). eexists. split; [exact (like_block w fl nm n o dc u fs union "" D Nd k Nl)|split; reflexivity].
  Qed.
  Hypothesis C : class_described w fl nm cls c group sn.

  Lemma ctor_part p : In p (ctor_parts fl nm k cls group sn) -> part k p.
  Proof.
    unfold ctor_parts. destruct group eqn:G; [intros []|]. pose proof (mc_ctor _ _ _ _ _ _ _ C eq_refl) as H.
    destruct (mc_cls _ _ _ _ _ _ _ C) as (g & T & _). cbn [app]. intros [<-|[<-|I]]; cbn [fst snd].
    - destruct (new_corr w fl nm sn H) as (ast & Cr). eexists. split; [exact (new_block w fl nm k sn ast H Cr)|split; reflexivity].
    - eexists. split; [exact (init_block w fl nm k cls g sn H T)|split; reflexivity].
    - apply in_map_iff in I. destruct I as (f & <- & If). apply filter_In in If. destruct If as (If & Mf). eexists.
      split; [exact (u_block w fl nm sn f H k cls g If Mf T)|split; reflexivity].
  Qed.
  Lemma all_parts ms : Permutation ms (filter is_member (sn_fields sn)) -> Forall (part k) (parts fl nm k cls group sn ms).
  Proof.
    intros P. apply Forall_forall. intros p I. unfold parts in I. apply in_app_or in I. destruct I as [I|I]; [|apply in_app_or in I; destruct I as [I|I]].
    - unfold union_parts in I. destruct (sn_utag sn) as [u|]; [|destruct I]. apply in_app_or in I. destruct I as [I|[<-|[]]].
      + unfold is_parts in I. apply in_map_iff in I. destruct I as (f & <- & If). apply (Permutation_in f P) in If. apply filter_In in If.
        destruct (mc_fields _ _ _ _ _ _ _ C f (proj1 If)) as (c' & (N & _) & _). eexists. split; [exact (is_block k (lit (f_name f)) (u * 2) _ N)|split; reflexivity].
      + exists []. split; [apply blk_blank|split; reflexivity].
    - apply in_flat_map in I. destruct I as (f & If & Ip). destruct (mc_fields _ _ _ _ _ _ _ C f If) as (c' & H). exact (field_part _ f c' p H Ip).
    - now apply ctor_part.
  Qed.

  (** every part of the text defines methods of the class *)
  Lemma made_parts : made_class w fl nm k cls c group sn -> exists ms, Permutation ms (filter is_member (sn_fields sn)) /\ map f_disc ms = map (fun i => Some (Z.of_nat i)) (seq 0 (length (filter is_member (sn_fields sn)))) /\
    (forall p, In p (parts fl nm k cls group sn ms) -> defines w c k (fst p)) /\ keeps w c /\
    (forall t l, block k t l -> (exists p l', In p (parts fl nm k cls group sn ms) /\ block k (fst p) l' /\ incl l l') -> defines w c k t).
  Proof.
    intros [_ (Nm & Kp) (_ & Tx)].
    destruct (mc_union _ _ _ _ _ _ _ C) as (Nu & U0). destruct (union_members (sn_fields sn) Nu) as (ms & P & E1 & E2).
    exists ms. split; [exact P|]. split; [exact E2|].
    assert (Um : sn_utag sn = None -> ms = []) by (intros E; apply Permutation_nil, Permutation_sym; rewrite <- (U0 E); exact P).
    destruct (parts_block k _ (all_parts ms P)) as (l & B & D & _ & S).
    rewrite (parts_names fl nm k cls group sn ms Um) in D. rewrite <- (parts_text fl nm k cls group sn ms E1 E2) in B.
    destruct Tx as (before & l' & after & R & Eb & Oth). rewrite (reads_unique _ _ _ _ R (blk_reads _ _ _ B)) in Eb. clear l' R.
    pose proof (named_perm group sn ms P) as Pn.
    assert (Nd : NoDup (defs l)) by (rewrite D; apply (Permutation_NoDup (Permutation_sym Pn)), Nm).
    assert (In_m : forall n, In n (defs l) -> In n (class_methods group sn)) by (intros n I; rewrite D in I; apply (Permutation_in n Pn I)).
    assert (Out : forall n, In n (defs l) -> ~ In n (defs before) /\ ~ In n (defs after)).
    { intros n I. split; intros J; (refine (proj1 (Oth n _) (In_m n I)); rewrite defs_app; apply in_or_app; tauto). }
    assert (Def : forall d n ps b, In (qDef d n ps b) l -> last_def (w_body w c) n = Some (d, ps, b)).
    { intros d n ps b I. rewrite Eb, !last_def_app. destruct (Out n (in_defs _ _ _ _ _ I)) as (O1 & O2). rewrite (last_def_none after n O2), (last_def_in l d n ps b Nd I). reflexivity. }
    split; [|split].
    - intros p I. destruct (S p I) as (l' & B' & J). exists l'. split; [apply blk_reads, B'|]. intros d n ps b Iq. apply Def, J, Iq.
    - intros n I. rewrite Eb. apply last_def_none. rewrite !defs_app. intros J. apply in_app_or in J.
      assert (Ir : In (lit n) (map lit runtime_names)) by (apply in_map, I).
      destruct J as [J|J]; [|apply in_app_or in J; destruct J as [J|J]].
      + refine (proj2 (Oth (lit n) _) Ir). rewrite defs_app; apply in_or_app; now left.
      + apply (Kp (lit n)); [apply In_m, J|exact Ir].
      + refine (proj2 (Oth (lit n) _) Ir). rewrite defs_app; apply in_or_app; now right.
    - intros t l1 B1 (p & l2 & Ip & B2 & J). destruct (S p Ip) as (l3 & B3 & J3). exists l1. split; [apply blk_reads, B1|].
      intros d n ps b Iq. apply Def, J3. rewrite (reads_unique _ _ _ _ (blk_reads _ _ _ B3) (blk_reads _ _ _ B2)). apply J, Iq.
  Qed.
End made.

Lemma class_block w fl nm k cls c group sn : class_described w fl nm cls c group sn ->
  exists l, block k (class_text fl nm k cls group sn) l /\ Permutation (defs l) (class_methods group sn) /\ forallb is_def l = true.
Proof.
  intros C. destruct (mc_union _ _ _ _ _ _ _ C) as (Nu & U0). destruct (union_members (sn_fields sn) Nu) as (ms & P & E1 & E2).
  destruct (parts_block k _ (all_parts w fl nm k cls c group sn C ms P)) as (l & B & D & O & _).
  assert (Um : sn_utag sn = None -> ms = []) by (intros E; apply Permutation_nil, Permutation_sym; rewrite <- (U0 E); exact P).
  rewrite (parts_names fl nm k cls group sn ms Um) in D. rewrite <- (parts_text fl nm k cls group sn ms E1 E2) in B. exists l. split; [exact B|]. split; [|exact O].
  rewrite D. exact (named_perm group sn ms P).
Qed.

(** ** Reading *)

(** The text of a class is Python. *)
Theorem C82_reads w fl nm k cls c group sn : class_described w fl nm cls c group sn -> exists l, reads_as k (class_text fl nm k cls group sn) l.
Proof.
  intros C. destruct (mc_union _ _ _ _ _ _ _ C) as (Nu & U0). destruct (union_members (sn_fields sn) Nu) as (ms & P & E1 & E2).
  destruct (parts_block k _ (all_parts w fl nm k cls c group sn C ms P)) as (l & B & _).
  rewrite <- (parts_text fl nm k cls group sn ms E1 E2) in B. exists l. apply blk_reads, B.
Qed.

Section made.
  Context (w : world) (fl : Z -> str) (nm : string -> string -> names) (k : nat) (cls c : str) (group : bool) (sn : struct_node).
  Hypothesis C : made_class w fl nm k cls c group sn.

  Lemma made_keeps : keeps w c.
  Proof. destruct (made_parts w fl nm k cls c group sn (mc_described _ _ _ _ _ _ _ _ C) C) as (ms & _ & _ & _ & K & _). exact K. Qed.
  Lemma made_tag : w_utag w c = sn_utag sn.
  Proof. destruct C as [_ _ (T & _)]. exact T. Qed.
  Lemma made_part p f : In f (sn_fields sn) -> In p (field_parts fl nm k f) -> defines w c k (fst p).
  Proof.
    intros I J. destruct (made_parts w fl nm k cls c group sn (mc_described _ _ _ _ _ _ _ _ C) C) as (ms & _ & _ & D & _). apply D. unfold parts.
    apply in_or_app. right. apply in_or_app. left. apply in_flat_map. exists f. auto.
  Qed.
  Lemma made_field f : In f (sn_fields sn) -> match f with FSlot _ _ _ _ _ _ _ => True | FGroup _ _ _ nl _ _ => nl = true end -> defines w c k (field_text fl k (nm "" (f_name f)) f).
  Proof.
    intros I T. destruct f as [n o d t off e v|n o d nl u fs]; [|subst nl]; eapply (made_part (_, _)); try exact I; cbn [field_parts]; left; reflexivity.
  Qed.
  Lemma made_group n o d nl u fs c' : In (FGroup n o d nl u fs) (sn_fields sn) -> py_name (lit n) -> means_class w (n_group (nm "" n)) c' ->
    defines w c k (if nl then def_property k (lit ("_" ++ n)) (group_body (nm "" n) d) else def_property k (lit n) (group_body (nm "" n) d)).
  Proof.
    intros I N (g & T & _). destruct nl.
    - destruct (made_parts w fl nm k cls c group sn (mc_described _ _ _ _ _ _ _ _ C) C) as (ms & _ & _ & _ & _ & S).
      assert (Nb : ensure_ast d ++ group_ast g <> []) by (destruct d; discriminate).
      assert (Nm : name (lit ("_" ++ n))).
      { change (lit ("_" ++ n)) with (lit "_" ++ lit n). apply name_under; [reflexivity|vm_compute; tauto|apply N]. }
      apply (S _ _ (property_block k (lit ("_" ++ n)) (group_body (nm "" n) d) _ Nm Nb (group_block (k + 4) (nm "" n) d g T))).
      destruct (group_stmts fl k (nm "" n) n o d true u fs g N T) as (rest & lt & E & B). eexists (_, _), _. split; [|split; [rewrite <- E in B; exact B|]].
      + unfold parts. apply in_or_app. right. apply in_or_app. left. apply in_flat_map. exists (FGroup n o d true u fs). split; [exact I|]. left. reflexivity.
      + intros q [<-|[]]. right. left. reflexivity.
    - eapply (made_part (_, _)); [exact I|]. left. reflexivity.
  Qed.
  Lemma made_ctor p : In p (ctor_parts fl nm k cls group sn) -> defines w c k (fst p).
  Proof.
    intros I. destruct (made_parts w fl nm k cls c group sn (mc_described _ _ _ _ _ _ _ _ C) C) as (ms & _ & _ & D & _). apply D. unfold parts.
    apply in_or_app. right. apply in_or_app. now right.
  Qed.
End made.

(** ** Accessors *)

(** obj.foo, obj.get_foo(), obj.has_foo() *)
Theorem C82_slot w fl nm k cls c group sn o n ord disc t off ex d depth s :
  let f := FSlot n ord disc t off ex d in
  made_class w fl nm k cls c group sn -> In f (sn_fields sn) -> exists c', field_refers w fl nm (match sn_utag sn with Some _ => true | None => false end) f c' /\
  gives (r_attr (rt w (S (S (S depth)))) (XObj c o) (lit n) s) o c' (get_slot o (sn_utag sn) f) /\
  (match t with TText | TData | TStruct | TList _ => True | _ => False end ->
   gives (calls_method w (S (S (S depth))) (XObj c o) (lit ("get_" ++ n)) [] [] s) o c' (get_method o (sn_utag sn) f)) /\
  (match t with TText | TData | TStruct | TList _ | TAny => True | _ => False end ->
   calls_method w (S (S (S depth))) (XObj c o) (lit ("has_" ++ n)) [] [] s = (do h <- has_slot o off; Ok (XV (PBool h), s))).
Proof.
  intros f C I. destruct (mc_fields _ _ _ _ _ _ _ (mc_described _ _ _ _ _ _ _ _ C) f I) as (c' & H). exists c'. split; [exact H|].
  destruct H as (N & H). pose proof (made_keeps _ _ _ _ _ _ _ _ C) as K. rewrite <- (made_tag _ _ _ _ _ _ _ _ C).
  pose proof (made_field _ _ _ _ _ _ _ _ C f I Logic.I) as D. split; [|split].
  - exact (C80_getter w fl (nm "" n) c c' o k n ord disc t off ex d (S depth) s N H K D).
  - exact (C80_get_method w fl (nm "" n) c c' o k n ord disc t off ex d depth s N H K D).
  - exact (C80_has w fl (nm "" n) c c' o k n ord disc t off ex d _ s N H K D).
Qed.
(** obj.is_foo() *)
Theorem C82_is w fl nm k cls c group sn o f d depth s :
  made_class w fl nm k cls c group sn -> In f (sn_fields sn) -> f_disc f = Some d -> 
  calls_method w (S depth) (XObj c o) (lit ("is_" ++ f_name f)) [] [] s = (do t <- which o (sn_utag sn); Ok (XV (PBool (t =? d)), s)).
Proof.
  intros C I Ed. pose proof (mc_described _ _ _ _ _ _ _ _ C) as Cd. destruct (mc_union _ _ _ _ _ _ _ Cd) as (Nu & U0).
  assert (Im : In f (filter is_member (sn_fields sn))) by (apply filter_In; split; [exact I|unfold is_member; rewrite Ed; reflexivity]).
  destruct (sn_utag sn) as [u|] eqn:U; [|rewrite (U0 eq_refl) in Im; destruct Im].
  destruct (made_parts w fl nm k cls c group sn Cd C) as (ms & P & E2 & D & K & _).
  assert (Df : defines w c k (is_text k (lit (f_name f)) (u * 2) d)).
  { apply (D (is_text k (lit (f_name f)) (u * 2) d, [lit ("is_" ++ f_name f)])). unfold parts, union_parts. rewrite U. apply in_or_app. left. apply in_or_app. left.
    unfold is_parts. apply in_map_iff. exists f. split; [unfold tag_of; rewrite Ed; reflexivity|]. apply (Permutation_in f (Permutation_sym P) Im). }
  destruct (mc_fields _ _ _ _ _ _ _ Cd f I) as (c' & (N & _) & _).
  pose proof (made_tag _ _ _ _ _ _ _ _ C) as T. rewrite U in T. rewrite <- T.
  exact (C80_is w c o k (lit (f_name f)) u d depth s N K T Df).
Qed.
(** obj.foo for a group (obj._foo for a nullable one): a view on the same
    object, of the class of the group *)
Theorem C82_group w fl nm k cls c group sn o n ord disc nullable utag fs cg depth s :
  let f := FGroup n ord disc nullable utag fs in
  made_class w fl nm k cls c group sn -> In f (sn_fields sn) -> means_class w (n_group (nm "" n)) cg -> keeps w cg ->
  r_attr (rt w (S depth)) (XObj c o) (if nullable then lit ("_" ++ n) else lit n) s =
  (do x <- get_group o (sn_utag sn) f; Ok (XNew cg, mkst (s_buf s) (Some x))).
Proof.
  intros f C I Hg Kg. destruct (mc_fields _ _ _ _ _ _ _ (mc_described _ _ _ _ _ _ _ _ C) f I) as (c' & N & _). rewrite <- (made_tag _ _ _ _ _ _ _ _ C).
  exact (C80_group w (nm "" n) c cg o k n ord disc nullable utag fs depth s N Hg Kg (made_keeps _ _ _ _ _ _ _ _ C) (made_group _ _ _ _ _ _ _ _ C n ord disc nullable utag fs cg I N Hg)).
Qed.
(** obj.foo for a nullable group, whose class is made from its text too *)
Theorem C82_nullable w fl nm k cls c group sn o n ord disc utag fs nm' k' cls' cg gn fi fv depth s :
  let f := FGroup n ord disc true utag fs in
  made_class w fl nm k cls c group sn -> In f (sn_fields sn) ->
  means_class w (n_group (nm "" n)) cg -> made_class w fl nm' k' cls' cg true gn -> sn_utag gn = utag -> sn_fields gn = fs ->
  find (fun x => String.eqb (f_name x) "is_null") fs = Some fi -> find (fun x => String.eqb (f_name x) "value") fs = Some fv ->
  match fi, fv with
  | FSlot _ _ _ ti _ _ _, FSlot _ _ _ tv _ _ _ => ti <> TStruct /\ ty_pointer tv = false
  | _, _ => False
  end ->
  exists cv, gives (r_attr (rt w (S (S (S depth)))) (XObj c o) (lit n) s) o cv (get_nullable o (sn_utag sn) f).
Proof.
  intros f C I Hg G Ug Fg Ei Ev T. destruct (mc_fields _ _ _ _ _ _ _ (mc_described _ _ _ _ _ _ _ _ C) f I) as (c' & N & _).
  destruct (find_some _ _ Ei) as (Ii & Ni). destruct (find_some _ _ Ev) as (Iv & Nv). rewrite <- Fg in Ii, Iv.
  pose proof (mc_described _ _ _ _ _ _ _ _ G) as Gd.
  destruct (mc_fields _ _ _ _ _ _ _ Gd fi Ii) as (ci & _ & Ri). destruct (mc_fields _ _ _ _ _ _ _ Gd fv Iv) as (cv & _ & Rv). exists cv. rewrite <- (made_tag _ _ _ _ _ _ _ _ C).
  refine (C80_nullable w fl (nm "" n) c cg o k n ord disc utag fs fi fv k' k' (nm' "" (f_name fi)) (nm' "" (f_name fv)) ci cv depth s N Hg (made_keeps _ _ _ _ _ _ _ _ G) (made_keeps _ _ _ _ _ _ _ _ C) _
    (made_field _ _ _ _ _ _ _ _ C f I eq_refl) Ei Ev _ _ _).
  - rewrite (made_tag _ _ _ _ _ _ _ _ G). exact Ug.
  - destruct fi as [n1 o1 d1 t1 f1 e1 v1|]; [|destruct T]. destruct fv as [n2 o2 d2 t2 f2 e2 v2|]; [|destruct T]. destruct T as (T1 & T2). auto.
  - apply (made_field _ _ _ _ _ _ _ _ G fi Ii). destruct fi; [exact Logic.I|destruct fv; destruct T].
  - apply (made_field _ _ _ _ _ _ _ _ G fv Iv). destruct fv; [exact Logic.I|destruct fi; destruct T].
Qed.

(** ** Constructors *)

(** Cls(...), Cls.new_foo(...), Cls.Foo(...) *)
Theorem C82_constructors w fl nm k cls c sn args kws depth s : made_class w fl nm k cls c false sn ->
  makes (calls w (S (S depth)) (XCls c) args kws s) c
    (with_args (map f_name (filter visible (sn_fields sn))) args kws (ctor (w_fuel w) sn)) /\
  (forall tag, In tag (sn_fields sn) -> is_member tag = true ->
   let mine f := negb (is_member f) || same_field f (f_name tag, f_order tag) in
   makes (calls_method w (S (S depth)) (XCls c) (lit "new_" ++ lit (f_name tag)) args kws s) c
     (with_args (map f_name (filter mine (filter visible (sn_fields sn)))) args kws (ctor_union (w_fuel w) sn tag))).
Proof.
  intros C. pose proof (mc_described _ _ _ _ _ _ _ _ C) as Cd. pose proof (mc_ctor _ _ _ _ _ _ _ Cd eq_refl) as H.
  assert (Dn : defines w c k (new_text fl nm k sn)) by (apply (made_ctor _ _ _ _ _ _ _ _ C (_, [lit "__new"])); now left).
  split.
  - apply (C81_init w fl nm cls c sn k); try assumption; [apply (mc_cls _ _ _ _ _ _ _ Cd)|].
    apply (made_ctor _ _ _ _ _ _ _ _ C (_, [lit "__init__"])). right. now left.
  - intros tag It Mt. apply (C81_new_union w fl nm cls c sn tag k); try assumption; [apply (mc_cls _ _ _ _ _ _ _ Cd)|apply (made_keeps _ _ _ _ _ _ _ _ C)|].
    apply (made_ctor _ _ _ _ _ _ _ _ C (_, [lit ("new_" ++ f_name tag)])). right. right. apply in_map_iff. exists tag. split; [reflexivity|]. apply filter_In. auto.
Qed.
Theorem C82_group_constructor w fl nm k cls c group sn n o dc u fs args kws depth s : made_class w fl nm k cls c group sn ->
  In (FGroup n o dc false u fs) (sn_fields sn) ->
  calls_method w (S depth) (XCls c) (like_name (lit n)) args kws s =
  (do x <- with_args (map f_name (filter visible fs)) args kws (group_ctor fs); Ok (XV x, s)).
Proof.
  intros C I. destruct (mc_fields _ _ _ _ _ _ _ (mc_described _ _ _ _ _ _ _ _ C) _ I) as (c' & N & Hg & Kg & L). destruct (L eq_refl) as (Nl & Nd & D).
  apply (C81_group w fl nm c n o dc u fs _ "" k args kws depth s D Nd Nl). eapply (made_part _ _ _ _ _ _ _ _ C (_, _)); [exact I|]. right. left. reflexivity.
Qed.

(** Cls(x=1, ...) made by the text of the class has the arguments as its
    attributes, read by the text of the class *)
Theorem C82_roundtrip w fl nm k cls c sn kw vals depth s : made_class w fl nm k cls c false sn ->
  (2 <= w_fuel w)%nat -> CtorSpec.layout_ok sn ->
  CtorSpec.call_ok (w_fuel w) (filter visible (sn_fields sn)) kw vals ->
  (length (CtorSpec.members_given (filter visible (sn_fields sn)) kw) <= 1)%nat ->
  CtorSpec.call_size sn kw vals <= 2 ^ 32 ->
  exists v s1 o, calls w (S (S depth)) (XCls c) [] kw s = Ok (v, s1) /\ object c o v s1 /\
  CtorSpec.scope_reads o (sn_utag sn) (sn_fields sn) (map (CtorSpec.arg_for kw) (filter visible (sn_fields sn))) /\
  forall n ord disc t off ex d,
    let f := FSlot n ord disc t off ex d in
    In f (sn_fields sn) -> visible f = true -> exists c',
    gives (r_attr (rt w (S (S depth))) v (lit n) s1) o c' (get_slot o (sn_utag sn) f).
Proof.
  intros C F L Ck M Sz. pose proof (mc_described _ _ _ _ _ _ _ _ C) as Cd. pose proof (mc_ctor _ _ _ _ _ _ _ Cd eq_refl) as H.
  destruct (C81_roundtrip w fl nm cls c sn k kw vals depth s H (mc_cls _ _ _ _ _ _ _ Cd) (made_keeps _ _ _ _ _ _ _ _ C)
    ltac:(apply (made_ctor _ _ _ _ _ _ _ _ C (_, [lit "__new"])); now left)
    ltac:(apply (made_ctor _ _ _ _ _ _ _ _ C (_, [lit "__init__"])); right; now left) F L (made_tag _ _ _ _ _ _ _ _ C) Ck M Sz) as (v & s1 & o & E & O & R & G).
  exists v, s1, o. split; [exact E|]. split; [exact O|]. split; [exact R|].
  intros n ord disc t off ex d f If Vf. destruct (mc_fields _ _ _ _ _ _ _ Cd _ If) as (c' & N & Hr). exists c'.
  apply (G n ord disc t off ex d (nm "" n) c' If Vf Hr). apply (made_field _ _ _ _ _ _ _ _ C f If Logic.I).
Qed.

(** ** Two methods of the same name *)

(** struct { hasX @0 :Bool; x @1 :Text; }: the name of the property of hasX is
    has_x, and that of the method which tells whether x is null; the class is
    Python but obj.has_x is not a bool, it is the method *)
Definition clashing : struct_node := mksn 1 1 None [FSlot "has_x" 0 None TBool 0 false 0; FSlot "x" 1 None TText 0 false 0].
Theorem C82_same_name_refuted w fl nm c o depth s :
  from_text w c false clashing 4 (class_text fl nm 4 (lit "Cls") false clashing) ->
  r_attr (rt w depth) (XObj c o) (lit "has_x") s = Ok (XMeth (XObj c o) (lit "has_x"), s) /\ ~ names_apart false clashing.
Proof.
  intros (_ & before & l & after & R & E & Oth). split.
  - assert (X : exists l0, reads_as 4 (class_text fl nm 4 (lit "Cls") false clashing) l0 /\ exists ps b, last_def l0 (lit "has_x") = Some (None, ps, b)).
    { eexists. split; [eexists _, 200%nat; split; [vm_compute; reflexivity|vm_compute; reflexivity]|]. eexists _, _. vm_compute. reflexivity. }
    destruct X as (l0 & R0 & ps & b & L). rewrite (reads_unique _ _ _ _ R R0) in E.
    assert (D : last_def (w_body w c) (lit "has_x") = Some (None, ps, b)).
    { rewrite E, !last_def_app, L. rewrite (last_def_none after); [reflexivity|].
      intros J. refine (proj1 (Oth (lit "has_x") _) _); [rewrite defs_app; apply in_or_app; now right|]. vm_compute. tauto. }
    destruct depth; cbn [rt r_attr]; rewrite D; reflexivity.
  - intros (N & _). vm_compute in N. inversion N as [|? ? X _]. apply X. cbn. tauto.
Qed.

Print Assumptions C82_reads.
Print Assumptions C82_slot.
Print Assumptions C82_is.
Print Assumptions C82_group.
Print Assumptions C82_nullable.
Print Assumptions C82_constructors.
Print Assumptions C82_group_constructor.
Print Assumptions C82_roundtrip.
Print Assumptions C82_same_name_refuted.
