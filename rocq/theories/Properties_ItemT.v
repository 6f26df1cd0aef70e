(** Property theorems C70 and C71: the types of the items of a list at run
    time, and lists compared with themselves. *)
From Coq Require Import Strings.String.
From Verif Require Import Base Spec BaseFacts Ptr Segment Builder Struct List Query Case CaseFacts Options Loader Names Const ConstSpec
  StructFacts Message Samples ItemT.
From Coq Require Import Lists.List.
Local Notation length := Datatypes.length.
Local Open Scope list_scope.
Local Open Scope Z_scope.

(** ** C70: AnyPointer.as_list(type) *)

(** The ways to write the element type of the schema in Python, where texts
    are read as bytes (tt = 1) or as unicode (tt = 2) *)
Inductive spells (tt : Z) : sty -> pyt -> Prop :=
| sp_void : spells tt SVoid (TyBuiltin (lit "void"))
| sp_bool : spells tt SBool (TyBuiltin (lit "bool"))
| sp_int f : spells tt (SInt f) (TyBuiltin (int_name f))
| sp_float32 : spells tt SFloat32 (TyBuiltin (lit "float32"))
| sp_float64 : spells tt SFloat64 (TyBuiltin (lit "float64"))
| sp_pyint : spells tt (SInt Fq) TyInt
| sp_pyfloat : spells tt SFloat64 TyFloat
| sp_bytes : tt = 1 -> spells tt SText TyBytes
| sp_unicode : tt = 2 -> spells tt SText TyUnicode
| sp_data : spells tt SData (TyBuiltin (lit "data"))
| sp_struct r : spells tt (SStruct r) (TyStruct r)
| sp_enum r : spells tt (SEnum r) (TyEnum r)
| sp_list t p : spells tt t p -> spells tt (SList t) (TyList [p]).

(** item_length and size_tag are those of the wire format, at every depth *)
Fixpoint right_sizes (sizes : cref -> Z * Z) (i : iobj) : Prop :=
  ilength i = it_length (model sizes i) /\ itag i = it_size_tag (model sizes i) /\
  match i with IObject _ _ _ (OList inner) => right_sizes sizes inner | _ => True end.

Theorem C70_from_type : forall sizes tt t p, spells tt t p -> forall a,
  exists i b, from_type sizes p a = Ok (i, b) /\ item_of tt t = Some (plain i) /\ right_sizes sizes i /\ a <= iaddr i < b.
Proof.
  intros sizes tt t p H. induction H as [| |f| | | | |E|E| |r|r|t p H IH]; intros a; try subst tt.
  3: { assert (E : from_type sizes (TyBuiltin (int_name f)) a = Ok (IObject a (fsize f) (it_size_tag (ITPrim f)) (OPrim (int_name f)), a + 1)) by (destruct f; reflexivity).
    eexists; eexists; split; [exact E|]; split; [reflexivity|]; split; [|cbn [iaddr]; lia]. cbn [right_sizes ilength itag]. unfold model. cbn [plain model_item].
    destruct f; cbn; auto. }
  12: { destruct (IH a) as (i & b & E & J & R & A). cbn [from_type]. rewrite E. cbn [bind].
    eexists; eexists; split; [reflexivity|]. cbn [item_of]. rewrite J. split; [reflexivity|].
    split; [cbn; auto|cbn [iaddr]; unfold new_list_of; cbn [iaddr]; lia]. }
  all: eexists; eexists; split; [reflexivity|]; split; [reflexivity|]; split; [cbn; auto|cbn [iaddr]; unfold new_void, new_bool, new_text, new_data, new_structs; cbn [iaddr]; lia].
Qed.
Print Assumptions C70_from_type.

(** What is not the spelling of a type, and the exception. *)
Inductive bad : pyt -> exn -> Prop :=
| bad_text : bad (TyBuiltin (lit "text")) NotImplementedError
| bad_name n : ~ In n (map fst types) -> bad (TyBuiltin n) NotImplementedError
| bad_base : bad TyStructBase AttributeError
| bad_other : bad TyOther NotImplementedError
| bad_length l : length l <> 1%nat -> bad (TyList l) ValueError
| bad_item p e : bad p e -> bad (TyList [p]) e.
Fixpoint psize (p : pyt) : nat :=
  match p with TyList l => S (fold_right (fun x n => (psize x + n)%nat) O l) | _ => 1%nat end.
Lemma assoc_none {A} n (l : list (str * A)) : ~ In n (map fst l) -> assoc n l = None.
Proof.
  induction l as [|(m, v) l IH]; cbn [map fst In assoc]; [reflexivity|]. intros N.
  destruct (str_eqb m n) eqn:E; [apply str_eqb_spec in E; subst; exfalso; auto|apply IH; auto].
Qed.
Lemma bad_refused sizes p e a : bad p e -> from_type sizes p a = Err e.
Proof.
  induction 1 as [|n N| | |l L|p e B IH]; try reflexivity.
  - cbn [from_type].
    assert (X : forall m, In m (map fst types) -> str_eqb n m = false).
    { intros m I. destruct (str_eqb n m) eqn:E; [|reflexivity]. apply str_eqb_spec in E. subst. contradiction. }
    rewrite (X (lit "void")), (X (lit "bool")), (X (lit "text")), (X (lit "data")) by (cbn [types map fst In]; tauto).
    rewrite (assoc_none n types N). reflexivity.
  - destruct l as [|x [|y l]]; [reflexivity|now cbn in L|reflexivity].
  - cbn [from_type]. rewrite IH. reflexivity.
Qed.
Lemma spelled_or_bad n : forall p, (psize p <= n)%nat -> (exists tt t, spells tt t p) \/ (exists e, bad p e).
Proof.
  induction n as [|n IH]; intros p L; [destruct p; cbn in L; lia|].
  destruct p as [nm| | | | |r| |r|l|].
  - destruct (in_dec (list_eq_dec Z.eq_dec) nm (map fst types)) as [I|N]; [|right; eexists; now apply bad_name].
    cbn [types map fst In] in I.
    repeat (destruct I as [<- | I]; [first [right; eexists; exact bad_text | left; exists 1; eexists; first
      [exact (sp_void 1)|exact (sp_bool 1)|exact (sp_float32 1)|exact (sp_float64 1)|exact (sp_data 1)
      |exact (sp_int 1 Fb)|exact (sp_int 1 FB)|exact (sp_int 1 Fh)|exact (sp_int 1 FH)|exact (sp_int 1 Fi)|exact (sp_int 1 FI)|exact (sp_int 1 Fq)|exact (sp_int 1 FQ)]]|]).
    contradiction.
  - left. exists 1. eexists. apply sp_pyint.
  - left. exists 1. eexists. apply sp_pyfloat.
  - left. exists 1. eexists. now apply sp_bytes.
  - left. exists 2. eexists. now apply sp_unicode.
  - left. exists 1. eexists. apply sp_struct.
  - right. eexists. apply bad_base.
  - left. exists 1. eexists. apply sp_enum.
  - destruct l as [|x [|y l]]; [right; eexists; apply bad_length; discriminate| |right; eexists; apply bad_length; discriminate].
    cbn [psize fold_right] in L. destruct (IH x ltac:(lia)) as [(tt & t & S) | (e & B)].
    + left. exists tt. eexists. apply sp_list. exact S.
    + right. eexists. apply bad_item. exact B.
  - right. eexists. apply bad_other.
Qed.
(** Everything else is refused, with a known exception. *)
Theorem C70_refused : forall sizes p a,
  ((exists tt t, spells tt t p) /\ (exists i b, from_type sizes p a = Ok (i, b))) \/
  (exists e, bad p e /\ from_type sizes p a = Err e).
Proof.
  intros sizes p a. destruct (spelled_or_bad _ p (le_n _)) as [(tt & t & S) | (e & B)].
  - left. split; [eauto|]. destruct (C70_from_type sizes tt t p S a) as (i & b & E & _). eauto.
  - right. exists e. split; [exact B|]. now apply bad_refused.
Qed.
Print Assumptions C70_refused.

(** The objects of the getters are those of the schema's type as well. *)
Lemma new_prim_ok a n k : In n prim_names -> exists i, new_prim a n k = Ok i /\ iaddr i = a /\ ikind i = k.
Proof.
  intros I. unfold prim_names in I. cbn [map In] in I.
  repeat (destruct I as [<- | I]; [eexists; split; [reflexivity|split; reflexivity]|]). contradiction.
Qed.
Lemma int_name_prim f : In (int_name f) prim_names.
Proof. destruct f; cbn; tauto. Qed.
Lemma field_items sizes home pyx tt t j : item_of tt t = Some j -> forall a,
  exists i b, field_item_type sizes home pyx tt t a = Ok (i, b) /\ plain i = j /\ a <= b /\
    (iaddr i = home j \/ a <= iaddr i < b).
Proof.
  revert j. induction t as [| |f| | | | |t IH|r|r| |]; intros j E a; cbn [item_of] in E; try discriminate E.
  1, 2, 7, 10: apply (f_equal (fun o => match o with Some x => x | None => JVoid end)) in E; subst j; cbn [field_item_type].
  1, 2, 3: destruct pyx; cbn [bind]; eexists; eexists; (split; [reflexivity|]); (split; [reflexivity|]).
  1, 2, 3, 4, 5, 6: split; [lia|]; cbn [iaddr new_void new_bool new_data]; lia.
  1: { destruct (negb pyx || negb (is_imported r)); cbn [bind]; eexists; eexists; (split; [reflexivity|]); (split; [reflexivity|]);
       (split; [lia|]); cbn [iaddr new_structs]; lia. }
  - apply (f_equal (fun o => match o with Some x => x | None => JVoid end)) in E. subst j. cbn [field_item_type].
    destruct (new_prim_ok (home (JPrim (int_name f))) (int_name f) (OPrim (int_name f)) (int_name_prim f)) as (i & E1 & A1 & K1).
    destruct (new_prim_ok a (int_name f) (OPrim (int_name f)) (int_name_prim f)) as (i' & E2 & A2 & K2).
    destruct pyx; rewrite ?E1, ?E2; cbn [bind]; eexists; eexists; (split; [reflexivity|]).
    + split; [destruct i; cbn [ikind] in K1; subst; reflexivity|]. split; [lia|left; exact A1].
    + split; [destruct i'; cbn [ikind] in K2; subst; reflexivity|]. split; [lia|right; lia].
  - apply (f_equal (fun o => match o with Some x => x | None => JVoid end)) in E. subst j. cbn [field_item_type].
    destruct (new_prim_ok (home (JPrim (lit "float32"))) (lit "float32") (OPrim (lit "float32"))) as (i & E1 & A1 & K1); [cbn; tauto|].
    destruct (new_prim_ok a (lit "float32") (OPrim (lit "float32"))) as (i' & E2 & A2 & K2); [cbn; tauto|].
    destruct pyx; rewrite ?E1, ?E2; cbn [bind]; eexists; eexists; (split; [reflexivity|]).
    + split; [destruct i; cbn [ikind] in K1; subst; reflexivity|]. split; [lia|left; exact A1].
    + split; [destruct i'; cbn [ikind] in K2; subst; reflexivity|]. split; [lia|right; lia].
  - apply (f_equal (fun o => match o with Some x => x | None => JVoid end)) in E. subst j. cbn [field_item_type].
    destruct (new_prim_ok (home (JPrim (lit "float64"))) (lit "float64") (OPrim (lit "float64"))) as (i & E1 & A1 & K1); [cbn; tauto|].
    destruct (new_prim_ok a (lit "float64") (OPrim (lit "float64"))) as (i' & E2 & A2 & K2); [cbn; tauto|].
    destruct pyx; rewrite ?E1, ?E2; cbn [bind]; eexists; eexists; (split; [reflexivity|]).
    + split; [destruct i; cbn [ikind] in K1; subst; reflexivity|]. split; [lia|left; exact A1].
    + split; [destruct i'; cbn [ikind] in K2; subst; reflexivity|]. split; [lia|right; lia].
  - cbn [field_item_type]. unfold tt_bytes, tt_unicode. destruct (tt =? 1); [|destruct (tt =? 2); [|discriminate E]];
    apply (f_equal (fun o => match o with Some x => x | None => JVoid end)) in E; subst j; destruct pyx; cbn [bind]; eexists; eexists;
    (split; [reflexivity|]); (split; [reflexivity|]); (split; [lia|cbn [iaddr new_text]; first [left; reflexivity|right; lia]]).
  - cbn [field_item_type]. destruct (item_of tt t) as [j'|]; [|discriminate E]. apply (f_equal (fun o => match o with Some x => x | None => JVoid end)) in E. subst j.
    destruct (IH j' eq_refl a) as (i & b & E & P & L & A). rewrite E. cbn [bind]. eexists; eexists. split; [reflexivity|].
    unfold new_list_of. cbn [plain iaddr]. rewrite P. split; [reflexivity|]. split; [lia|right; lia].
  - apply (f_equal (fun o => match o with Some x => x | None => JVoid end)) in E. subst j. cbn [field_item_type].
    assert (I16 : In (lit "int16") prim_names) by (cbn; tauto).
    destruct (new_prim_ok (home (JEnum r)) (lit "int16") (OEnum r) I16) as (i & E1 & A1 & K1).
    destruct (new_prim_ok a (lit "int16") (OEnum r) I16) as (i' & E2 & A2 & K2). unfold new_enum.
    destruct (negb pyx || negb (is_imported r)); rewrite ?E1, ?E2; cbn [bind]; eexists; eexists; (split; [reflexivity|]).
    + split; [destruct i; cbn [ikind] in K1; subst; reflexivity|]. split; [lia|left; exact A1].
    + split; [destruct i'; cbn [ikind] in K2; subst; reflexivity|]. split; [lia|right; lia].
Qed.

(** what a caller sees of the list: everything but the identity of its item
    type and the allocations *)
Definition view (r : res (option (lobj * iobj) * Z)) : res (option lobj) :=
  match r with Ok (Some (l, _), _) => Ok (Some l) | Ok (None, _) => Ok None | Err e => Err e end.

(** as_list(type), for any spelling of the element type, and as_list(item
    type) read what the getter of a field List(t) reads, for all objects,
    errors included. *)
Theorem C70_as_list : forall sizes home pyx tt t p, spells tt t p -> forall o offset a a',
  view (ap_as_list_of sizes o offset (GType p) a) = view (get_list sizes home pyx tt t o offset a') /\
  forall i, item_of tt t = Some (plain i) ->
    view (ap_as_list_of sizes o offset (GItem i) a) = view (get_list sizes home pyx tt t o offset a').
Proof.
  intros sizes home pyx tt t p S o offset a a'.
  destruct (C70_from_type sizes tt t p S a) as (i & b & E & J & _).
  destruct (field_items sizes home pyx tt t (plain i) J a') as (i' & b' & E' & P & _).
  assert (G : view (get_list sizes home pyx tt t o offset a') = o_read_list o offset (model_item sizes (plain i))).
  { unfold get_list. rewrite E'. cbn [bind]. unfold model. rewrite P. destruct (o_read_list o offset (model_item sizes (plain i))) as [[l|]|e]; reflexivity. }
  split.
  - rewrite G. unfold ap_as_list_of. rewrite E. cbn [bind]. unfold model. destruct (o_read_list o offset (model_item sizes (plain i))) as [[l|]|e]; reflexivity.
  - intros i0 J0. rewrite G. rewrite J in J0. apply (f_equal (fun o => match o with Some x => x | None => JVoid end)) in J0. rewrite J0.
    unfold ap_as_list_of. cbn [bind]. unfold model. destruct (o_read_list o offset (model_item sizes (plain i0))) as [[l|]|e]; reflexivity.
Qed.
Print Assumptions C70_as_list.
(** A list of lists of texts, its Python spelling [[bytes]], and an object
    that holds texts *)
Example C70_ex :
  spells 1 (SList (SList SText)) (TyList [TyList [TyBytes]]) /\
  bad (TyList [TyList [TyBuiltin (lit "text")]]) NotImplementedError /\ bad (TyList [TyInt; TyInt]) ValueError /\
  (exists i, from_type (fun _ => (0, 0)) (TyList [TyList [TyBytes]]) 7 = Ok (i, 10) /\ plain i = JList (JList (JText false))).
Proof.
  split; [repeat constructor|]. split; [repeat constructor|]. split; [apply bad_length; discriminate|].
  eexists. split; reflexivity.
Qed.

(** ** C71: a list compared with itself *)

(** The element types for which reading a field List(t) twice gives item
    types that compare equal: all but lists of lists; and those lists of
    lists whose inner item type is one object, made when the module is
    imported *)
Definition shared (pyx : bool) (t : sty) : bool :=
  match t with
  | SList u =>
      match u with
      | SStruct r | SEnum r => negb pyx || negb (is_imported r)
      | SVoid | SBool | SInt _ | SFloat32 | SFloat64 | SText | SData => pyx
      | _ => false
      end
  | _ => true
  end.
Lemma str_eqb_refl n : str_eqb n n = true.
Proof. now apply str_eqb_spec. Qed.
Lemma type_eqb_plain i j : (forall x, plain i <> JList x) -> plain i = plain j -> type_eqb i j = true.
Proof.
  destruct i as [? ? ? k], j as [? ? ? k']. destruct k, k'; cbn [plain]; intros N E; try discriminate E; try reflexivity; unfold type_eqb; cbn [ikind].
  - apply (f_equal (fun x => match x with JPrim n => n | _ => [] end)) in E. subst. apply str_eqb_refl.
  - apply (f_equal (fun x => match x with JStruct n => n | _ => mkcref None [] end)) in E. subst.
    destruct (list_eq_dec (list_eq_dec Z.eq_dec) (cr_path r0) (cr_path r0)); [|contradiction]. destruct (cr_file r0); [apply str_eqb_refl|reflexivity].
  - apply (f_equal (fun x => match x with JEnum n => n | _ => mkcref None [] end)) in E. subst.
    destruct (list_eq_dec (list_eq_dec Z.eq_dec) (cr_path r0) (cr_path r0)); [|contradiction]. destruct (cr_file r0); [apply str_eqb_refl|reflexivity].
  - exfalso. exact (N _ eq_refl).
Qed.
(** a shared object is at home, the others are new *)
Lemma field_addr sizes home pyx tt u a i b : field_item_type sizes home pyx tt u a = Ok (i, b) ->
  (shared pyx (SList u) = true /\ b = a /\ exists j, item_of tt u = Some j /\ iaddr i = home j) \/
  (shared pyx (SList u) = false /\ a <= iaddr i < b).
Proof.
  intros E. assert (J : exists j, item_of tt u = Some j).
  { revert a i b E. induction u as [| |f| | | | |u IH|r|r| |]; intros a i b E; cbn [item_of]; eauto; cbn [field_item_type] in E; try discriminate E.
    - unfold tt_bytes, tt_unicode in E. destruct (tt =? 1); [eauto|]. destruct (tt =? 2); [eauto|discriminate E].
    - destruct (field_item_type sizes home pyx tt u a) as [(i', b')|] eqn:E'; [|discriminate E]. destruct (IH _ _ _ E') as (j & ->). eauto. }
  destruct J as (j & J). destruct (field_items sizes home pyx tt u j J a) as (i0 & b0 & E0 & P & L & A). rewrite E in E0.
  apply ok_inj in E0. pose proof (f_equal fst E0) as X1. pose proof (f_equal snd E0) as X2. cbn [fst snd] in X1, X2. subst i0 b0. clear E0.
  assert (Sh : forall (sh : bool) (mk : Z -> res iobj) (h : ity), (if sh then do i0 <- mk (home h); Ok (i0, a) else do i0 <- mk a; Ok (i0, a + 1)) = Ok (i, b) ->
     (forall x y, mk x = Ok y -> iaddr y = x) -> (sh = true /\ b = a /\ iaddr i = home h) \/ (sh = false /\ a <= iaddr i < b)).
  { intros sh mk h Q Hm. destruct sh; [left|right]; (destruct (mk _) as [y|] eqn:M; cbn [bind] in Q; [|discriminate Q]);
      apply ok_inj in Q; pose proof (f_equal fst Q) as Y1; pose proof (f_equal snd Q) as Y2; cbn [fst snd] in Y1, Y2; subst;
      rewrite (Hm _ _ M); repeat split; lia. }
  assert (Hp : forall n k x y, new_prim x n k = Ok y -> iaddr y = x).
  { intros n k x y Q. unfold new_prim in Q. destruct (assoc n types) as [[f|]|]; try discriminate Q. destruct (prim_tag (calcsize f)); cbn [bind] in Q; [|discriminate Q].
    apply ok_inj in Q. subst. reflexivity. }
  cbn [shared]. clear P A L.
  destruct u as [| |f| | | | |u|r|r| |]; cbn [field_item_type item_of] in E, J |- *; try discriminate E.
  6: { unfold tt_bytes, tt_unicode in E. destruct (tt =? 1); [|destruct (tt =? 2); [|discriminate J]];
       [destruct (Sh pyx (fun a => Ok (new_text a false)) (JText false) E) as [(Q1 & Q2 & Q3)|Q]|destruct (Sh pyx (fun a => Ok (new_text a true)) (JText true) E) as [(Q1 & Q2 & Q3)|Q]];
       first [intros x y Q; apply ok_inj in Q; subst; reflexivity|left; split; [exact Q1|]; split; [exact Q2|]; eexists; split; [reflexivity|exact Q3]|right; exact Q]. }
  7: { right. split; [reflexivity|]. destruct (field_item_type sizes home pyx tt u a) as [(i', b')|] eqn:E'; cbn [bind] in E; [|discriminate E].
       apply ok_inj in E. pose proof (f_equal fst E) as Y1. pose proof (f_equal snd E) as Y2. cbn [fst snd] in Y1, Y2. subst. unfold new_list_of. cbn [iaddr].
       assert (M : forall u a i b, field_item_type sizes home pyx tt u a = Ok (i, b) -> a <= b).
       { clear. induction u as [| |f| | | | |u IH|r|r| |]; intros a i b E; cbn [field_item_type] in E; try discriminate E.
         8: { destruct (field_item_type sizes home pyx tt u a) as [(i', b')|] eqn:E'; cbn [bind] in E; [|discriminate E]. apply ok_inj in E.
              pose proof (f_equal snd E) as Y. cbn [snd] in Y. specialize (IH _ _ _ E'). lia. }
         6: destruct (tt =? tt_bytes); [|destruct (tt =? tt_unicode); [|discriminate E]].
         all: repeat match type of E with context [if ?c then _ else _] => destruct c end;
              match type of E with bind ?m _ = _ => destruct m; cbn [bind] in E; [|discriminate E] end; apply ok_inj in E;
              pose proof (f_equal snd E) as Y; cbn [snd] in Y; lia. }
       specialize (M _ _ _ _ E'). lia. }
  1: destruct (Sh pyx (fun a => Ok (new_void a)) JVoid E) as [(Q1 & Q2 & Q3)|Q].
  4: destruct (Sh pyx (fun a => Ok (new_bool a)) JBool E) as [(Q1 & Q2 & Q3)|Q].
  7: destruct (Sh pyx (fun a => new_prim a (int_name f) (OPrim (int_name f))) (JPrim (int_name f)) E) as [(Q1 & Q2 & Q3)|Q].
  10: destruct (Sh pyx (fun a => new_prim a (lit "float32") (OPrim (lit "float32"))) (JPrim (lit "float32")) E) as [(Q1 & Q2 & Q3)|Q].
  13: destruct (Sh pyx (fun a => new_prim a (lit "float64") (OPrim (lit "float64"))) (JPrim (lit "float64")) E) as [(Q1 & Q2 & Q3)|Q].
  16: destruct (Sh pyx (fun a => Ok (new_data a)) JData E) as [(Q1 & Q2 & Q3)|Q].
  19: destruct (Sh (negb pyx || negb (is_imported r)) (fun a => new_enum a r) (JEnum r) E) as [(Q1 & Q2 & Q3)|Q].
  22: destruct (Sh (negb pyx || negb (is_imported r)) (fun a => Ok (new_structs sizes a r)) (JStruct r) E) as [(Q1 & Q2 & Q3)|Q].
  all: first [intros x y Q; first [exact (Hp _ _ _ _ Q)|apply ok_inj in Q; subst; reflexivity]|left; split; [exact Q1|]; split; [exact Q2|]; eexists; split; [reflexivity|exact Q3]|right; exact Q].
Qed.

Lemma type_eqb_shared sizes home pyx tt t a i b j c :
  field_item_type sizes home pyx tt t a = Ok (i, b) -> field_item_type sizes home pyx tt t b = Ok (j, c) ->
  type_eqb i j = shared pyx t /\ plain i = plain j.
Proof.
  intros E1 E2.
  assert (J : exists y, item_of tt t = Some y /\ plain i = y /\ plain j = y).
  { assert (J : exists y, item_of tt t = Some y).
    { destruct (field_addr _ _ _ _ _ _ _ _ E1) as [(_ & _ & y & J & _)|_]; [eauto|].
      clear E2 j c. revert a i b E1. induction t as [| |f| | | | |u IH|r|r| |]; intros a i b E; cbn [item_of]; eauto; cbn [field_item_type] in E; try discriminate E.
      - unfold tt_bytes, tt_unicode in E. destruct (tt =? 1); [eauto|]. destruct (tt =? 2); [eauto|discriminate E].
      - destruct (field_item_type sizes home pyx tt u a) as [(i', b')|] eqn:E'; [|discriminate E]. destruct (IH _ _ _ E') as (y & ->). eauto. }
    destruct J as (y & J). exists y. split; [exact J|].
    destruct (field_items sizes home pyx tt t y J a) as (i0 & b0 & F1 & P1 & _). destruct (field_items sizes home pyx tt t y J b) as (j0 & c0 & F2 & P2 & _).
    rewrite E1 in F1. rewrite E2 in F2. apply ok_inj in F1, F2. apply (f_equal fst) in F1, F2. cbn [fst] in F1, F2. subst i0 j0. auto. }
  destruct J as (y & J & P1 & P2). split; [|congruence].
  assert (D : (exists u, t = SList u) \/ (shared pyx t = true /\ forall x, y <> JList x)).
  { destruct t; cbn [item_of] in J; eauto; right; (split; [reflexivity|]); intros x X; rewrite X in J; try discriminate J.
    destruct (tt =? 1); [discriminate J|]. destruct (tt =? 2); discriminate J. }
  destruct D as [(u & ->)|(S & N)]; [|rewrite S; apply type_eqb_plain; [rewrite P1; exact N|congruence]].
  clear J P1 P2. cbn [field_item_type] in E1, E2.
  destruct (field_item_type sizes home pyx tt u a) as [(i', b')|] eqn:F1; cbn [bind] in E1; [|discriminate E1].
  apply ok_inj in E1. pose proof (f_equal fst E1) as X1. pose proof (f_equal snd E1) as X2. cbn [fst snd] in X1, X2. subst i b. clear E1.
  destruct (field_item_type sizes home pyx tt u (b' + 1)) as [(j', c')|] eqn:F2; cbn [bind] in E2; [|discriminate E2].
  apply ok_inj in E2. pose proof (f_equal fst E2) as X1. cbn [fst] in X1. subst j. clear E2.
  unfold type_eqb, new_list_of. cbn [ikind].
  destruct (field_addr _ _ _ _ _ _ _ _ F1) as [(S1 & _ & j1 & J1 & A1)|(S1 & A1)], (field_addr _ _ _ _ _ _ _ _ F2) as [(S2 & _ & j2 & J2 & A2)|(S2 & A2)]; rewrite S1 in *; try discriminate S2.
  - rewrite J1 in J2. apply (f_equal (fun o => match o with Some x => x | None => JVoid end)) in J2. subst j2. rewrite A1, A2. apply Z.eqb_refl.
  - apply Z.eqb_neq. lia.
Qed.

(** Two lists read one after the other from fields List(t) of two objects (or
    twice from the same): == answers whether the item types of t are shared,
    they have as many items, and the same bytes; TypeError for structs. *)
Theorem C71_equal : forall sizes home pyx tt t o offset o' offset' a x b y c fuel s s',
  get_list sizes home pyx tt t o offset a = Ok (Some x, b) ->
  get_list sizes home pyx tt t o' offset' b = Ok (Some y, c) ->
  l_get_slice fuel (fst x) = Ok s -> l_get_slice fuel (fst y) = Ok s' ->
  lists_equal fuel x y = match t with SStruct _ => Err TypeError 
    | _ => Ok (shared pyx t && (l_count (fst x) =? l_count (fst y)) && if list_eq_dec Byte.byte_eq_dec s s' then true else false) end.
Proof.
  intros sizes home pyx tt t o offset o' offset' a x b y c fuel s s' G1 G2 Hx Hy. unfold get_list in G1, G2.
  destruct (field_item_type sizes home pyx tt t a) as [(i, b1)|] eqn:E1; cbn [bind] in G1; [|discriminate G1].
  destruct (o_read_list o offset (model sizes i)) as [[l|]|] eqn:R1; cbn [bind] in G1; try discriminate G1.
  apply ok_inj in G1. pose proof (f_equal fst G1) as X1. pose proof (f_equal snd G1) as X2. cbn [fst snd] in X1, X2. subst b1. clear G1.
  apply (f_equal (fun o => match o with Some p => p | None => (l, i) end)) in X1. subst x.
  destruct (field_item_type sizes home pyx tt t b) as [(j, c1)|] eqn:E2; cbn [bind] in G2; [|discriminate G2].
  destruct (o_read_list o' offset' (model sizes j)) as [[l'|]|] eqn:R2; cbn [bind] in G2; try discriminate G2.
  apply ok_inj in G2. pose proof (f_equal fst G2) as X1. cbn [fst] in X1. clear G2.
  apply (f_equal (fun o => match o with Some p => p | None => (l', j) end)) in X1. subst y. cbn [fst snd] in *.
  destruct (type_eqb_shared _ _ _ _ _ _ _ _ _ _ E1 E2) as (T & P).
  assert (K : match t with SStruct _ => exists r, ikind i = OStruct r | _ => forall r, ikind i <> OStruct r end).
  { clear - E1. destruct t as [| |f| | | | |u|r|r| |]; cbn [field_item_type] in E1; try discriminate E1.
    6: destruct (tt =? tt_bytes); [|destruct (tt =? tt_unicode); [|discriminate E1]].
    all: try unfold new_enum in E1; try unfold new_prim in E1;
      repeat match type of E1 with
        | context [if ?c then _ else _] => destruct c
        | context [assoc ?n types] => destruct (assoc n types) as [[?|]|]
        | context [prim_tag ?z] => destruct (prim_tag z)
        | context [field_item_type ?a ?b ?c ?d ?e ?f] => destruct (field_item_type a b c d e f) as [(?, ?)|]
        end; cbn [bind] in E1; try discriminate E1; apply ok_inj in E1; apply (f_equal fst) in E1; cbn [fst] in E1; subst i;
      unfold new_void, new_bool, new_text, new_data, new_structs, new_list_of; cbn [ikind]; first [discriminate|eauto]. }
  unfold lists_equal. cbn [fst snd]. rewrite T, Hx, Hy. cbn [bind]. rewrite (andb_comm (l_count l =? l_count l')).
  destruct t; try (destruct (ikind i) as [| | | | |q| |]; try (exfalso; exact (K q eq_refl)); match goal with |- context [shared ?p ?t] => destruct (shared p t && (l_count l =? l_count l')) end; reflexivity).
  destruct K as (r0 & K). rewrite K. reflexivity.
Qed.
Print Assumptions C71_equal.

(** So with as many items and the same bytes it answers whether they are
    shared *)
Theorem C71_same_bytes : forall sizes home pyx tt t o offset o' offset' a x b y c fuel s,
  get_list sizes home pyx tt t o offset a = Ok (Some x, b) ->
  get_list sizes home pyx tt t o' offset' b = Ok (Some y, c) ->
  l_count (fst x) = l_count (fst y) -> l_get_slice fuel (fst x) = Ok s -> l_get_slice fuel (fst y) = Ok s ->
  lists_equal fuel x y = match t with SStruct _ => Err TypeError | _ => Ok (shared pyx t) end.
Proof.
  intros sizes home pyx tt t o offset o' offset' a x b y c fuel s G1 G2 Hc Hx Hy.
  rewrite (C71_equal _ _ _ _ _ _ _ _ _ _ _ _ _ _ _ _ _ G1 G2 Hx Hy). rewrite Hc, Z.eqb_refl, andb_true_r.
  destruct (list_eq_dec Byte.byte_eq_dec s s); [|contradiction]. now rewrite andb_true_r.
Qed.
Print Assumptions C71_same_bytes.

(** In particular x.f == x.f. *)
Theorem C71_read_twice : forall sizes home pyx tt t o offset a x b,
  get_list sizes home pyx tt t o offset a = Ok (Some x, b) ->
  exists y c, get_list sizes home pyx tt t o offset b = Ok (Some y, c) /\ fst x = fst y /\
    forall fuel s, l_get_slice fuel (fst x) = Ok s ->
      lists_equal fuel x y = match t with SStruct _ => Err TypeError | _ => Ok (shared pyx t) end.
Proof.
  intros sizes home pyx tt t o offset a x b G. pose proof G as G1. unfold get_list in G1.
  destruct (field_item_type sizes home pyx tt t a) as [(i, b1)|] eqn:E1; cbn [bind] in G1; [|discriminate G1].
  destruct (o_read_list o offset (model sizes i)) as [[l|]|] eqn:R1; cbn [bind] in G1; try discriminate G1.
  apply ok_inj in G1. pose proof (f_equal fst G1) as X1. pose proof (f_equal snd G1) as X2. cbn [fst snd] in X1, X2. subst b1. clear G1.
  apply (f_equal (fun o => match o with Some p => p | None => (l, i) end)) in X1. subst x.
  assert (J : exists j c, field_item_type sizes home pyx tt t b = Ok (j, c)).
  { assert (W : exists y, item_of tt t = Some y).
    { clear - E1. revert a i b E1. induction t as [| |f| | | | |u IH|r|r| |]; intros a i b E; cbn [item_of]; eauto; cbn [field_item_type] in E; try discriminate E.
      - unfold tt_bytes, tt_unicode in E. destruct (tt =? 1); [eauto|]. destruct (tt =? 2); [eauto|discriminate E].
      - destruct (field_item_type sizes home pyx tt u a) as [(i', b')|] eqn:E'; [|discriminate E]. destruct (IH _ _ _ E') as (y & ->). eauto. }
    destruct W as (y & W). destruct (field_items sizes home pyx tt t y W b) as (j & c & F & _). eauto. }
  destruct J as (j & c & E2). destruct (type_eqb_shared _ _ _ _ _ _ _ _ _ _ E1 E2) as (T & P).
  assert (G2 : get_list sizes home pyx tt t o offset b = Ok (Some (l, j), c)).
  { unfold get_list. rewrite E2. cbn [bind]. unfold model in *. rewrite <- P, R1. reflexivity. }
  exists (l, j), c. split; [exact G2|]. split; [reflexivity|]. intros fuel s Hs.
  exact (C71_same_bytes _ _ _ _ _ _ _ _ _ _ _ _ _ _ _ _ G G2 eq_refl Hs Hs).
Qed.
Print Assumptions C71_read_twice.
(** Without Cython a list of lists of numbers is never equal to itself read
    again; with Cython a list of lists of lists. *)
Theorem C71_lists_of_lists_refuted : forall sizes home tt (pyx : bool) t, t = (if pyx then SList (SList (SInt Fi)) else SList (SInt Fi)) ->
  forall o offset a x b, get_list sizes home pyx tt t o offset a = Ok (Some x, b) ->
  exists y c, get_list sizes home pyx tt t o offset b = Ok (Some y, c) /\ fst x = fst y /\
    forall fuel s, l_get_slice fuel (fst x) = Ok s -> lists_equal fuel x y = Ok false.
Proof.
  intros sizes home tt pyx t -> o offset a x b G. destruct (C71_read_twice _ _ _ _ _ _ _ _ _ _ G) as (y & c & G2 & F & H).
  exists y, c. split; [exact G2|]. split; [exact F|]. intros fuel s Hs. rewrite (H fuel s Hs). destruct pyx; reflexivity.
Qed.
Print Assumptions C71_lists_of_lists_refuted.
(** An object with the list [[1, 2]] in its pointer 0 *)
Definition matrix : bytes :=
  le_enc 8 (Z.shiftl 1 48) ++ le_enc 8 (1 + Z.shiftl 6 32 + Z.shiftl 1 35) ++ le_enc 8 (1 + Z.shiftl 4 32 + Z.shiftl 2 35) ++
  le_enc 8 (1 + Z.shiftl 2 32).
Example C71_ex :
  (do x <- loads (frame_with [] [matrix]);
   match x with None => Err ValueError | Some o =>
     let get := get_list (fun _ => (0, 0)) (fun _ => 3) in
     do (x, a) <- get false 1 (SList (SInt Fi)) o 0 100;
     do (y, _) <- get false 1 (SList (SInt Fi)) o 0 a;
     do (x', a) <- get true 1 (SList (SInt Fi)) o 0 100;
     do (y', _) <- get true 1 (SList (SInt Fi)) o 0 a;
     match x, y, x', y' with
     | Some x, Some y, Some x', Some y' =>
         do r <- lists_equal 9 x y; do r' <- lists_equal 9 x' y';
         do items <- l_iter 9 (fst x) 0; do s <- l_get_slice 9 (fst x);
         Ok (r, r', blen items, blen s)
     | _, _, _, _ => Err ValueError
     end end) = Ok (false, true, 1, 16).
Proof. vm_compute. reflexivity. Qed.
