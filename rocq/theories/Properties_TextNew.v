(** C81: the text generated for the constructors of a class, read and run as
    Python, does what the model of the constructors says. *)
From Coq Require Import Strings.String.
From Verif Require FloatBits Names CtorSpec CtorProps ArgSpec.
From Verif Require Import Base BaseFacts Spec Ptr Segment Builder Copy Struct List CopyList Case CaseFacts Loader Repr PyExpr
  Ctor PySyntax PySyntaxFacts PyPrint PyRun GenRun GenText TextSpec GenTextFacts GenTextRun GenNew GenNew2 GenNew3 GenNew4 GenNew5 GenGet GenGet2 Properties_Text Properties_Ctor.
From Coq Require Import Lists.List.
Local Notation length := Datatypes.length.
Local Open Scope string_scope.
Local Open Scope list_scope.
Local Open Scope Z_scope.

(** ** Reading *)

(** The text of __new, of __init__, of new_foo and of the constructors of
    groups is Python. *)
Theorem C81_reads w fl nm cls c sn k : node_described w fl nm sn -> means_class w cls c ->
  (exists l, reads_as k (new_text fl nm k sn) l) /\
  (exists l, reads_as k (init_text fl k cls sn) l) /\
  (forall tag, In tag (sn_fields sn) -> is_member tag = true -> exists l, reads_as k (new_union_text fl k cls sn tag) l).
Proof.
  intros H (g & T & _). destruct (new_corr w fl nm sn H) as (ast & C). split; [|split].
  - eexists. eapply blk_reads, new_block; eassumption.
  - eexists. eapply blk_reads, init_block; eassumption.
  - intros tag It Mt. eexists. eapply blk_reads, u_block; eassumption.
Qed.
Theorem C81_group_reads w fl nm k n o dc u fs union prefix : described w fl nm union prefix (FGroup n o dc false u fs) ->
  NoDup (map f_name (filter visible fs)) -> py_name (like_name (lit n)) -> exists l, reads_as k (like_text fl k (lit n) fs) l.
Proof. intros H N Nl. eexists. eapply blk_reads, like_block; eassumption. Qed.

Lemma defined_new w fl nm c sn k : node_described w fl nm sn -> defines w c k (new_text fl nm k sn) -> has_new w fl nm c sn.
Proof.
  intros H D. destruct (new_corr w fl nm sn H) as (ast & C). exists ast. split; [exact C|].
  apply (defined w c k _ _ _ _ _ _ D (new_block w fl nm k sn ast H C)). now left.
Qed.

(** ** Cls(1, x=2, ...) *)
Lemma init_call w fl nm cls c sn k args kws depth s :
  node_described w fl nm sn -> means_class w cls c -> defines w c k (new_text fl nm k sn) -> defines w c k (init_text fl k cls sn) ->
  calls w (S (S depth)) (XCls c) args kws s =
  (do xs <- with_args (map f_name (filter visible (sn_fields sn))) args kws (bind_args (map f_name (filter visible (sn_fields sn))) (map (default None) (filter visible (sn_fields sn))));
   do buf <- run_new (w_fuel w) sn xs;
   do o <- init_from_buffer {| sbuf := buf; soffs := None |} 0 (sn_ds sn) (sn_ps sn);
   Ok (XNew c, mkst buf (Some o))).
Proof.
  intros H (g & T & Eg) Dn Di. pose proof (defined_new w fl nm c sn k H Dn) as Hn.
  assert (D : last_def (w_body w c) (lit "__init__") = Some (None, init_ps fl sn, init_ast g sn)).
  { apply (defined w c k _ _ _ _ _ _ Di (init_block w fl nm k cls g sn H T)). now left. }
  unfold calls. cbn [rt r_call]. rewrite D. fold (rt w (S depth)).
  pose proof (init_run w fl nm c cls g sn depth args kws (mkst (s_buf s) None) H Hn T Eg) as X. cbn [rt] in X. rewrite X.
  destruct (with_args _ _ _ _) as [xs|]; [|reflexivity]. cbn [bind]. destruct (run_new _ _ _) as [buf|]; [|reflexivity]. cbn [bind]. destruct (init_from_buffer _ _ _ _); reflexivity.
Qed.
Theorem C81_init w fl nm cls c sn k args kws depth s :
  node_described w fl nm sn -> means_class w cls c -> defines w c k (new_text fl nm k sn) -> defines w c k (init_text fl k cls sn) ->
  makes (calls w (S (S depth)) (XCls c) args kws s) c
    (with_args (map f_name (filter visible (sn_fields sn))) args kws (ctor (w_fuel w) sn)).
Proof.
  intros H Hc Dn Di. rewrite (init_call w fl nm cls c sn k args kws depth s H Hc Dn Di). unfold with_args, ctor. destruct (clash _ _ _); [reflexivity|].
  destruct (bind_args _ _ _) as [xs|]; [|reflexivity]. cbn [bind]. destruct (run_new _ _ _) as [buf|]; [|reflexivity]. cbn [bind]. destruct (init_from_buffer _ _ _ _) as [o|]; [|reflexivity].
  cbn [bind makes]. exists (XNew c), (mkst buf (Some o)). split; [reflexivity|]. right. split; reflexivity.
Qed.

(** ** Cls.new_foo(1, x=2, ...) *)
Theorem C81_new_union w fl nm cls c sn tag k args kws depth s :
  node_described w fl nm sn -> means_class w cls c -> keeps w c -> defines w c k (new_text fl nm k sn) -> defines w c k (new_union_text fl k cls sn tag) ->
  In tag (sn_fields sn) -> is_member tag = true ->
  let mine f := negb (is_member f) || same_field f (f_name tag, f_order tag) in
  makes (calls_method w (S (S depth)) (XCls c) (lit "new_" ++ lit (f_name tag)) args kws s) c
    (with_args (map f_name (filter mine (filter visible (sn_fields sn)))) args kws (ctor_union (w_fuel w) sn tag)).
Proof.
  intros H (g & T & Eg) Kc Dn Du It Mt mine. pose proof (defined_new w fl nm c sn k H Dn) as Hn.
  assert (D : last_def (w_body w c) (lit "new_" ++ lit (f_name tag)) = Some (Some (lit "classmethod"), u_ps fl sn tag, u_ast sn tag g)).
  { apply (defined w c k _ _ _ _ _ _ Du (u_block w fl nm sn tag H k cls g It Mt T)). now left. }
  assert (Em : filter mine (filter visible (sn_fields sn)) = u_top sn tag).
  { unfold u_top. rewrite filter_comm. reflexivity. }
  unfold calls_method, ctor_union. fold mine. rewrite Em.
  cbn [rt r_attr]. rewrite D. change (among (lit "classmethod") ["staticmethod"; "classmethod"]) with true. cbn [bind].
  unfold calls. cbn [rt r_call]. rewrite D. change (is (lit "classmethod") "classmethod") with true. cbn iota. fold (rt w (S depth)).
  pose proof (u_run w fl nm sn tag H c cls g depth args kws s Hn Kc T Eg It Mt) as X. cbn [rt] in X. rewrite X. clear X.
  unfold with_args. destruct (clash _ _ _); [reflexivity|].
  destruct (bind_args _ _ _) as [xs|]; [|reflexivity]. cbn [bind]. destruct (run_new _ _ _) as [buf|]; [|reflexivity]. cbn [bind]. destruct (init_from_buffer _ _ _ _) as [o|]; [|reflexivity].
  cbn [bind makes]. exists (XObj c o), (mkst buf (s_new s)). split; [reflexivity|]. now left.
Qed.

(** ** Cls.Foo(1, x=2, ...), for a group foo *)
Theorem C81_group w fl nm c n o dc u fs union prefix k args kws depth s :
  described w fl nm union prefix (FGroup n o dc false u fs) -> NoDup (map f_name (filter visible fs)) -> py_name (like_name (lit n)) ->
  defines w c k (like_text fl k (lit n) fs) ->
  calls_method w (S depth) (XCls c) (like_name (lit n)) args kws s =
  (do x <- with_args (map f_name (filter visible fs)) args kws (group_ctor fs); Ok (XV x, s)).
Proof.
  intros H N Nl Dl.
  assert (D : last_def (w_body w c) (like_name (lit n)) = Some (Some (lit "staticmethod"), map (par fl None) (filter visible fs), like_ast fs)).
  { apply (defined w c k _ _ _ _ _ _ Dl (like_block w fl nm n o dc u fs union prefix H N k Nl)). now left. }
  unfold calls_method. cbn [rt r_attr]. rewrite D. change (among (lit "staticmethod") ["staticmethod"; "classmethod"]) with true. cbn [bind].
  unfold calls. cbn [rt r_call]. rewrite D. change (is (lit "staticmethod") "classmethod") with false. cbn iota.
  apply (like_run w fl nm n o dc u fs union prefix H N).
Qed.

(** ** Making an object and reading its attributes *)

(** Both texts together: Cls(x=1, ...) is an instance whose attributes are the
    arguments, or the defaults of the schema *)
Lemma new_attr w c o n dp s v : s_new s = Some o -> py_name (lit n) -> upper_or_underscore (lit n) = false ->
  r_attr (rt w dp) (XObj c o) (lit n) s = v -> r_attr (rt w dp) (XNew c) (lit n) s = v.
Proof.
  intros E N U <-.
  assert (X : among (lit n) ["_init_from_buffer"; "_init_from_pointer"] = false).
  { destruct (among (lit n) _) eqn:A; [|reflexivity]. apply existsb_exists in A. destruct A as (m & Im & Em). apply str_eqb_spec in Em. rewrite Em in U.
    cbn in Im. destruct Im as [<-|[<-|[]]]; discriminate U. }
  destruct dp; cbn [rt r_attr]; rewrite X, E; reflexivity.
Qed.
Theorem C81_roundtrip w fl nm cls c sn k kw vals depth s :
  node_described w fl nm sn -> means_class w cls c -> keeps w c ->
  defines w c k (new_text fl nm k sn) -> defines w c k (init_text fl k cls sn) ->
  (2 <= w_fuel w)%nat -> CtorSpec.layout_ok sn -> w_utag w c = sn_utag sn ->
  CtorSpec.call_ok (w_fuel w) (filter visible (sn_fields sn)) kw vals ->
  (length (CtorSpec.members_given (filter visible (sn_fields sn)) kw) <= 1)%nat ->
  CtorSpec.call_size sn kw vals <= 2 ^ 32 ->
  exists v s1 o, calls w (S (S depth)) (XCls c) [] kw s = Ok (v, s1) /\ object c o v s1 /\
  CtorSpec.scope_reads o (sn_utag sn) (sn_fields sn) (map (CtorSpec.arg_for kw) (filter visible (sn_fields sn))) /\
  forall n ord disc t off ex d nms c',
    let f := FSlot n ord disc t off ex d in
    In f (sn_fields sn) -> visible f = true -> refers w fl nms t d c' -> defines w c k (field_text fl k nms f) ->
    gives (r_attr (rt w (S (S depth))) v (lit n) s1) o c' (get_slot o (sn_utag sn) f).
Proof.
  intros H Hc Kc Dn Di F L U Ck M Sz.
  destruct (C29_constructor (w_fuel w) F sn L kw vals Ck M Sz) as (o & d & vs & Ec & _ & _ & _ & Rd).
  pose proof (init_call w fl nm cls c sn k [] kw depth s H Hc Dn Di) as X.
  assert (E : with_args (map f_name (filter visible (sn_fields sn))) [] kw (bind_args (map f_name (filter visible (sn_fields sn))) (map (default None) (filter visible (sn_fields sn))))
    = bind_args (map f_name (filter visible (sn_fields sn))) (map (default None) (filter visible (sn_fields sn))) kw).
  { unfold with_args, clash. cbn [length Nat.leb negb orb firstn existsb]. replace (existsb (fun _ : string * pyval => false) kw) with false by (clear; induction kw; [reflexivity|assumption]). now rewrite combine_nil. }
  rewrite E in X. unfold ctor in Ec. destruct (bind_args _ _ kw) as [xs|]; [|discriminate Ec]. cbn [bind] in *. destruct (run_new _ _ _) as [buf|]; [|discriminate Ec]. cbn [bind] in *. rewrite Ec in X. cbn [bind] in X.
  exists (XNew c), (mkst buf (Some o)), o. split; [exact X|]. split; [right; split; reflexivity|]. split; [exact Rd|].
  intros n ord disc t off ex dd nms c' If Vf Hr Df.
  pose proof (nd_fields _ _ _ sn H _ If Vf) as (N1 & N2 & _). rewrite <- U.
  rewrite (new_attr w c o n (S (S depth)) (mkst buf (Some o)) _ eq_refl N1 N2 eq_refl).
  now apply (C80_getter w fl nms c c' o k).
Qed.

(** ** Not every schema gives Python *)

(** a group called none has the constructor None, which is a keyword *)
Theorem C81_group_none_refuted fl l : ~ reads_as 4 (like_text fl 4 (lit "none") [FSlot "x" 0 None (TPrim Fi) 0 false 0]) l.
Proof.
  intros (lg & n & E & P). vm_compute in E. injection E as <-.
  destruct n as [|[|[|[|n]]]]; cbn in P; discriminate P.
Qed.
(** an infinite default is printed as str() of the float, which is a name that
    nothing defines *)
Definition inf_node : struct_node := mksn 1 0 None [FSlot "x" 0 None TFloat64 0 true (2047 * 2 ^ 52)].
Theorem C81_float_inf_refuted w c args kws depth s : let fl (_ : Z) := lit "inf" in
  w_global w (lit "inf") = None -> defines w c 4 (init_text fl 4 (lit "Cls") inf_node) -> calls w (S depth) (XCls c) args kws s = Err NameError.
Proof.
  intros fl G (l & R & D).
  assert (X : exists b, last_def (w_body w c) (lit "__init__") = Some (None, [(lit "self", None); (lit "x", Some (xVar (lit "inf")))], b)).
  { assert (P : exists b, reads_as 4 (init_text fl 4 (lit "Cls") inf_node) [qDef None (lit "__init__") [(lit "self", None); (lit "x", Some (xVar (lit "inf")))] b]).
    { eexists. eexists _, 100%nat. split; [vm_compute; reflexivity|vm_compute; reflexivity]. }
    destruct P as (b & P). pose proof (reads_unique _ _ _ _ R P) as ->. exists b. apply D. now left. }
  destruct X as (b & X). unfold calls. cbn [rt r_call]. rewrite X. unfold call_def.
  assert (E : r_global (rt w depth) (lit "inf") = Err NameError).
  { replace (r_global (rt w depth) (lit "inf")) with (match w_global w (lit "inf") with Some v => Ok v | None => Err NameError end) by (destruct depth; reflexivity).
    rewrite G. reflexivity. }
  cbn [def_params ev]. unfold var. cbn [existsb]. rewrite E. reflexivity.
Qed.

Print Assumptions C81_reads.
Print Assumptions C81_group_reads.
Print Assumptions C81_init.
Print Assumptions C81_new_union.
Print Assumptions C81_group.
Print Assumptions C81_roundtrip.
Print Assumptions C81_group_none_refuted.
Print Assumptions C81_float_inf_refuted.
