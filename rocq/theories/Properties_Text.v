(** C80: the text generated for the accessors of a class, read and run as
    Python, does what the model of the accessors says. *)
From Coq Require Import Strings.String.
From Verif Require FloatBits Names.
From Verif Require Import Base BaseFacts Spec Ptr Segment Builder Copy Struct List CopyList Case CaseFacts Loader Repr PyExpr
  Ctor PySyntax PySyntaxFacts PyPrint PyRun GenRun GenText TextSpec GenTextFacts GenTextRun GenGet GenGet2.
From Coq Require Import Lists.List.
Local Notation length := Datatypes.length.
Local Open Scope string_scope.
Local Open Scope list_scope.
Local Open Scope Z_scope.

(** ** From texts to definitions *)
Lemma defined w c k ls l d n ps b : defines w c k ls -> block k ls l -> In (qDef d n ps b) l -> last_def (w_body w c) n = Some (d, ps, b).
Proof. intros (l' & R & H) B I. apply H. rewrite (reads_unique k ls l' l R (blk_reads k ls l B)). exact I. Qed.

Lemma refers_exprs w fl nms nm t off d c c' : refers w fl nms t d c' -> exists cls enum item,
  (t = TAny -> last_def (w_body w c) (lit "has_" ++ nm) = Some (None, [(lit "self", None)], has_ast (off * 8))) -> slot_ok w fl c nms nm t off d cls enum item c'.
Proof.
  intros H. set (z := xConst CNone). assert (I : True) by exact Logic.I. destruct t; cbn [refers] in H.
  - exists z, z, z; intros Hh; split; try discriminate; exact I.
  - exists z, z, z; intros Hh; split; try discriminate; exact I.
  - destruct H as (R & F). exists z, z, z. intros Hh. split; try discriminate; auto.
  - exists z, z, z; intros Hh; split; try discriminate; [exact H|exact I].
  - exists z, z, z; intros Hh; split; try discriminate; exact I.
  - destruct H as (ce & (e & T & E) & Kc). exists z, e, z. intros Hh. split; try discriminate; try exact I. intros _. split; [exact T|]. exists ce. auto.
  - exists z, z, z; intros Hh; split; try discriminate; exact I.
  - exists z, z, z; intros Hh; split; try discriminate; exact I.
  - destruct H as ((e & T & E) & Kc). exists e, z, z. intros Hh. split; try discriminate; try exact I. auto.
  - destruct H as (e & T & E). exists z, z, e. intros Hh. split; try discriminate; try exact I. auto.
  - exists z, z, z; intros Hh; split; try discriminate; try exact I. exact Hh.
Qed.

(** what is read from the text of a slot *)
Definition slot_stmts (fl : Z -> str) (cls enum item : pexp) (nm : str) (disc : option Z) (t : ftype) (off d : Z) : list pstmt :=
  qDef (Some (lit "property")) nm [(lit "self", None)] (ensure_ast disc ++ body_ast fl cls enum item nm t off d) ::
  (if get_able t then [qDef None (lit "get_" ++ nm) [(lit "self", None)] (get_ast t cls item nm (off * ty_size t))] else []) ++
  (if ty_pointer t then [qDef None (lit "has_" ++ nm) [(lit "self", None)] (has_ast (off * ty_size t))] else []).
Lemma slot_block w fl k c nms n ord disc t off ex d c' : py_name (lit n) -> refers w fl nms t d c' ->
  exists cls enum item,
  block k (field_text fl k nms (FSlot n ord disc t off ex d)) (slot_stmts fl cls enum item (lit n) disc t off d) /\
  ((t = TAny -> last_def (w_body w c) (lit "has_" ++ lit n) = Some (None, [(lit "self", None)], has_ast (off * 8))) -> slot_ok w fl c nms (lit n) t off d cls enum item c').
Proof.
  intros (N1 & N2) H. destruct (refers_exprs w fl nms (lit n) t off d c c' H) as (cls & enum & item & SO). exists cls, enum, item. split; [|exact SO].
  assert (SO' : slot_float w fl t d /\ (t = TStruct -> cls_text (n_cls nms) cls) /\ (t = TEnum -> cls_text (n_enum nms) enum) /\ match t with TList _ => item_text (n_item nms) item | _ => True end).
  { destruct t.
    11:{ cbn. split; [exact Logic.I|]. split; [discriminate|]. split; [discriminate|exact Logic.I]. }
    all: destruct (SO ltac:(discriminate)) as [F Fr He Hi Hc Hh]; (split; [exact F|]; split; [intros E; apply (Hc E)|]; split; [intros E; apply (He E)|]); try exact Logic.I.
    apply Hi. }
  destruct SO' as (F & Hc & He & Hi). cbn [field_text]. unfold slot_stmts.
  apply (blk_app k _ _ [_] _).
  - apply property_block; [split; assumption|destruct disc; [discriminate|destruct t; discriminate]|].
    apply body_block with (w := w); auto; [intros E; apply it_cls; auto|intros E; apply it_cls; auto].
  - apply blk_app.
    + destruct (get_able t) eqn:G; [|destruct t; try discriminate G; apply blk_nil]. apply get_block; auto. split; assumption.
    + destruct (ty_pointer t); [|apply blk_nil]. now apply has_block.
Qed.

(** ** Reading *)

(** The text of the accessors of a slot is Python. *)
Theorem C80_slot_reads w fl nms c' k n ord disc t off ex d :
  let f := FSlot n ord disc t off ex d in
  py_name (lit n) -> refers w fl nms t d c' -> exists l, reads_as k (field_text fl k nms f) l.
Proof.
  intros f N H. destruct (slot_block w fl k [] nms n ord disc t off ex d c' N H) as (cls & enum & item & B & _). eexists. eapply blk_reads, B.
Qed.

(** ** obj.foo *)
Theorem C80_getter w fl nms c c' o k n ord disc t off ex d depth s :
  let f := FSlot n ord disc t off ex d in
  py_name (lit n) -> refers w fl nms t d c' -> keeps w c -> defines w c k (field_text fl k nms f) ->
  gives (r_attr (rt w (S (S depth))) (XObj c o) (lit n) s) o c' (get_slot o (w_utag w c) f).
Proof.
  intros f N H K D. destruct (slot_block w fl k c nms n ord disc t off ex d c' N H) as (cls & enum & item & B & SO).
  assert (SO' : slot_ok w fl c nms (lit n) t off d cls enum item c').
  { apply SO. intros ->. apply (defined w c k _ _ None _ _ _ D B). right. left. reflexivity. }
  rewrite (rt_attr_property w (S depth) c o (lit n) s _ _ (defined w c k _ _ _ _ _ _ D B (or_introl eq_refl))).
  rewrite (run_getter w depth fl c o K nms (lit n) t off d cls enum item c' n ord disc ex s SO').
  fold f. destruct (get_slot o (w_utag w c) f) as [v|]; [|reflexivity]. cbn [bind gives]. destruct (shows o c' v s) as [x s'] eqn:E. exists x, s'. split; [reflexivity|].
  destruct v; cbn [shows] in E; injection E as <- <-; try reflexivity. right. split; reflexivity.
Qed.

(** ** obj.get_foo() *)
Theorem C80_get_method w fl nms c c' o k n ord disc t off ex d depth s :
  let f := FSlot n ord disc t off ex d in
  py_name (lit n) -> refers w fl nms t d c' -> keeps w c -> defines w c k (field_text fl k nms f) ->
  match t with TText | TData | TStruct | TList _ => True | _ => False end ->
  gives (do (g, s) <- r_attr (rt w (S (S (S depth)))) (XObj c o) (lit ("get_" ++ n)) s; r_call (rt w (S (S (S depth)))) g [] [] s) o c' (get_method o (w_utag w c) f).
Proof.
  intros f N H K D T. destruct (slot_block w fl k c nms n ord disc t off ex d c' N H) as (cls & enum & item & B & SO).
  assert (G : get_able t = true) by (destruct t; try destruct T; reflexivity).
  assert (SO' : slot_ok w fl c nms (lit n) t off d cls enum item c') by (apply SO; intros ->; destruct T).
  assert (E : lit ("get_" ++ n) = lit "get_" ++ lit n) by reflexivity. rewrite E.
  assert (Dg : last_def (w_body w c) (lit "get_" ++ lit n) = Some (None, [(lit "self", None)], get_ast t cls item (lit n) (off * ty_size t))).
  { apply (defined w c k _ _ _ _ _ _ D B). unfold slot_stmts. rewrite G. right. left. reflexivity. }
  rewrite (rt_attr_def w _ c o _ s _ _ Dg). cbn [bind]. rewrite (rt_call_def w _ c o _ s _ _ None [] [] Dg).
  apply (run_get_method w depth fl c o K nms cls enum item c' n ord disc t off ex d s SO' G).
  apply (defined w c k _ _ _ _ _ _ D B). left. reflexivity.
Qed.

(** ** obj.has_foo() *)
Theorem C80_has w fl nms c c' o k n ord disc t off ex d depth s :
  py_name (lit n) -> refers w fl nms t d c' -> keeps w c -> defines w c k (field_text fl k nms (FSlot n ord disc t off ex d)) ->
  match t with TText | TData | TStruct | TList _ | TAny => True | _ => False end ->
  (do (g, s) <- r_attr (rt w (S depth)) (XObj c o) (lit ("has_" ++ n)) s; r_call (rt w (S depth)) g [] [] s) = (do h <- has_slot o off; Ok (XV (PBool h), s)).
Proof.
  intros N H K D T. destruct (slot_block w fl k c nms n ord disc t off ex d c' N H) as (cls & enum & item & B & _).
  assert (P : ty_pointer t = true) by (destruct t; try destruct T; reflexivity).
  assert (E : lit ("has_" ++ n) = lit "has_" ++ lit n) by reflexivity. rewrite E.
  assert (Dg : last_def (w_body w c) (lit "has_" ++ lit n) = Some (None, [(lit "self", None)], has_ast (off * ty_size t))).
  { apply (defined w c k _ _ _ _ _ _ D B). unfold slot_stmts. rewrite P. right. apply in_or_app. right. left. reflexivity. }
  rewrite (rt_attr_def w _ c o _ s _ _ Dg). cbn [bind]. rewrite (rt_call_def w _ c o _ s _ _ None [] [] Dg), has_run by exact K.
  replace (off * ty_size t) with (off * 8) by (destruct t; try destruct T; reflexivity). unfold has_slot. destruct (o_read_fast_ptr o (off * 8)); reflexivity.
Qed.

(** ** obj.is_foo() *)
Theorem C80_is w c o k item u i depth s : ident item = true -> keeps w c -> w_utag w c = Some u -> defines w c k (is_text k item (u * 2) i) ->
  (do (g, s) <- r_attr (rt w (S depth)) (XObj c o) (lit "is_" ++ item) s; r_call (rt w (S depth)) g [] [] s) =
  (do t <- which o (w_utag w c); Ok (XV (PBool (t =? i)), s)).
Proof.
  intros N K U D. assert (Dg := defined w c k _ _ _ _ _ _ D (is_block k item (u * 2) i N) (or_introl eq_refl)).
  rewrite (rt_attr_def w _ c o _ s _ _ Dg). cbn [bind]. rewrite (rt_call_def w _ c o _ s _ _ None [] [] Dg), is_run by exact K. rewrite U. reflexivity.
Qed.

(** ** Groups *)
Lemma group_stmts fl k nms n ord disc nullable utag fs g : py_name (lit n) -> cls_text (n_group nms) g ->
  exists rest lt, field_text fl k nms (FGroup n ord disc nullable utag fs) = lt /\
  (if nullable then block k lt [qDef (Some (lit "property")) (lit n) [(lit "self", None)] (nullable_ast (lit n));
                                qDef (Some (lit "property")) (lit "_" ++ lit n) [(lit "self", None)] (ensure_ast disc ++ group_ast g)]
   else exists l1, lt = l1 ++ rest /\ rest = like_text fl k (lit n) fs /\
        block k l1 [qDef (Some (lit "property")) (lit n) [(lit "self", None)] (ensure_ast disc ++ group_ast g)]).
Proof.
  intros (N1 & N2) Hg. exists (like_text fl k (lit n) fs). eexists. split; [reflexivity|]. cbn [field_text].
  assert (Nb : ensure_ast disc ++ group_ast g <> []) by (destruct disc; discriminate).
  destruct nullable.
  - apply (blk_app k _ _ [_] [_]).
    + apply property_block; [split; assumption|discriminate|]. now apply nullable_block.
    + apply property_block; [apply name_under; [reflexivity|vm_compute; tauto|exact N1]|exact Nb|]. now apply group_block.
  - eexists. split; [reflexivity|]. split; [reflexivity|]. apply property_block; [split; assumption|exact Nb|]. now apply group_block.
Qed.
(** the property obj.group (obj._group for a nullable one) *)
Theorem C80_group w nms c cg o k n ord disc nullable utag fs depth s :
  let f := FGroup n ord disc nullable utag fs in
  py_name (lit n) -> means_class w (n_group nms) cg -> keeps w cg -> keeps w c -> 
  defines w c k (if nullable then def_property k (lit ("_" ++ n)) (group_body nms disc) else def_property k (lit n) (group_body nms disc)) ->
  r_attr (rt w (S depth)) (XObj c o) (if nullable then lit ("_" ++ n) else lit n) s =
  (do x <- get_group o (w_utag w c) f; Ok (XNew cg, mkst (s_buf s) (Some x))).
Proof.
  intros f (N1 & N2) (g & Hg & Eg) Kg K D. assert (Nb : ensure_ast disc ++ group_ast g <> []) by (destruct disc; discriminate).
  assert (Nm : name (if nullable then lit ("_" ++ n) else lit n)).
  { destruct nullable; [|split; assumption]. change (lit ("_" ++ n)) with (lit "_" ++ lit n). apply name_under; [reflexivity|vm_compute; tauto|exact N1]. }
  assert (B := property_block k (if nullable then lit ("_" ++ n) else lit n) (group_body nms disc) _ Nm Nb (group_block (k + 4) nms disc g Hg)).
  replace (if nullable then def_property k (lit ("_" ++ n)) (group_body nms disc) else def_property k (lit n) (group_body nms disc))
    with (def_property k (if nullable then lit ("_" ++ n) else lit n) (group_body nms disc)) in D by (destruct nullable; reflexivity).
  rewrite (rt_attr_property w depth c o _ s _ _ (defined w c k _ _ _ _ _ _ D B (or_introl eq_refl))).
  exact (run_group w depth c o K nms g cg disc f s Hg Kg Eg eq_refl).
Qed.

(** the property of a nullable group *)
Theorem C80_nullable w fl nms c cg o k n ord disc utag fs fi fv ki kv ni nv ci cv depth s :
  let f := FGroup n ord disc true utag fs in
  py_name (lit n) -> means_class w (n_group nms) cg -> keeps w cg -> keeps w c -> w_utag w cg = utag ->
  defines w c k (field_text fl k nms f) ->
  find (fun x => String.eqb (f_name x) "is_null") fs = Some fi -> find (fun x => String.eqb (f_name x) "value") fs = Some fv ->
  match fi, fv with
  | FSlot _ _ _ ti _ _ di, FSlot _ _ _ tv _ _ dv =>
      refers w fl ni ti di ci /\ refers w fl nv tv dv cv /\ ti <> TStruct /\ ty_pointer tv = false
  | _, _ => False
  end ->
  defines w cg ki (field_text fl ki ni fi) -> defines w cg kv (field_text fl kv nv fv) ->
  gives (r_attr (rt w (S (S (S depth)))) (XObj c o) (lit n) s) o cv (get_nullable o (w_utag w c) f).
Proof.
  intros f N (g & Hg & Eg) Kg K U D Fi Fv Hf Di Dv.
  assert (Ni : f_name fi = "is_null") by (apply find_some in Fi; apply String.eqb_eq; apply Fi).
  assert (Nv : f_name fv = "value") by (apply find_some in Fv; apply String.eqb_eq; apply Fv).
  destruct fi as [n1 o1 d1 t1 off1 e1 v1|]; [|destruct Hf]. destruct fv as [n2 o2 d2 t2 off2 e2 v2|]; [|destruct Hf]. destruct Hf as (Ri & Rv & NS & NP).
  cbn [f_name] in Ni, Nv. subst n1 n2.
  destruct (group_stmts fl k nms n ord disc true utag fs g N Hg) as (rest & lt & E & B). cbn iota in B. rewrite <- E in B.
  assert (Getter : forall kk nn nms0 ord0 disc0 t0 off0 ex0 dv0 cc, py_name (lit nn) -> refers w fl nms0 t0 dv0 cc ->
     defines w cg kk (field_text fl kk nms0 (FSlot nn ord0 disc0 t0 off0 ex0 dv0)) -> has_getter w fl cg (FSlot nn ord0 disc0 t0 off0 ex0 dv0) cc).
  { intros kk nn nms0 ord0 disc0 t0 off0 ex0 dv0 cc P R0 D0. destruct (slot_block w fl kk cg nms0 nn ord0 disc0 t0 off0 ex0 dv0 cc P R0) as (cls & enum & item & B0 & SO).
    exists nms0, cls, enum, item. split.
    - apply SO. intros ->. apply (defined w cg kk _ _ None _ _ _ D0 B0). right. left. reflexivity.
    - apply (defined w cg kk _ _ _ _ _ _ D0 B0). left. reflexivity. }
  rewrite (rt_attr_property w (S (S depth)) c o (lit n) s _ _ (defined w c k _ _ _ _ _ _ D B (or_introl eq_refl))).
  eapply (run_nullable w depth fl c o K nms g cg n ord disc utag fs); try eassumption.
  - apply (defined w c k _ _ _ _ _ _ D B). right. left. reflexivity.
  - eapply Getter; [split; reflexivity|exact Ri|exact Di].
  - eapply Getter; [split; reflexivity|exact Rv|exact Dv].
Qed.

(** These theorems apply to the class of TextSamples.v (node_getters,
    node_nullable), whose text is read and run there. *)
Print Assumptions C80_slot_reads.
Print Assumptions C80_getter.
Print Assumptions C80_get_method.
Print Assumptions C80_has.
Print Assumptions C80_is.
Print Assumptions C80_group.
Print Assumptions C80_nullable.
