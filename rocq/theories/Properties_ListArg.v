(** Property theorems C76: the lists of other messages as arguments of a
    constructor (pure-Python mode; by C74 the compiled constructors build the
    same object).

    [ctor fuel sn kw] is Cls( ** kw), [call_ok], [layout_ok] as in
    Properties_Ctor.v; [PList l] is the argument [l], a capnpy List. *)
From Verif Require FloatBits FloatSpec FloatFacts Properties_Float.
From Verif Require Import Base Spec BaseFacts Ptr Segment SegmentFacts Builder Struct List ListFacts Query StructFacts Enc
  CopyList ArgSpec CopyListFacts Ctor CtorSpec CtorCall CtorProps CtorSamples EncFacts Samples CReadFacts.
From Verif Require Import FloatBits FloatSpec FloatFacts.
From Coq Require Import String ZifyBool.
From Coq Require Import Lists.List.
Local Notation length := Datatypes.length.
Local Open Scope string_scope.
Local Open Scope list_scope.
Local Open Scope Z_scope.

(** ** Specification *)

(** [l'] has the length and the items of [l], lists of items of type [t]:
    the same integers, floats (bit by bit, but for NaN), texts; structs of the
    same value; inner lists that are again copies *)
Fixpoint copy_of (t : itype) (l l' : lobj) : Prop :=
  l_count l' = l_count l /\
  forall i, 0 <= i < l_count l -> exists x x', l_getitem l i = Ok x /\ l_getitem l' i = Ok x' /\
    match t with
    | ITVoid => x = INone /\ x' = INone
    | ITBool => False
    | ITPrim _ => exists z, x = IInt z /\ x' = IInt z
    | ITFloat true => exists b, x = IFloat true b /\ x' = IFloat true b
    | ITFloat false => exists b b', x = IFloat false b /\ x' = IFloat false b' /\
        (b' = b \/ (is_nan single b /\ is_nan single b'))
    | ITStruct _ _ => exists o o', x = IObj o /\ x' = IObj o' /\ same_struct o o'
    | ITText _ => exists b, x = IBytes b /\ x' = IBytes b
    | ITList t' => exists m m', x = IList m /\ x' = IList m' /\ copy_of t' m m'
    end.

(** ** Proofs *)
Lemma iter_nth l : forall fuel i xs, l_iter fuel l i = Ok xs ->
  forall k x, nth_error xs k = Some x -> l_getitem l (i + Z.of_nat k) = Ok x.
Proof.
  induction fuel as [|fuel IH]; intros i xs E k x K; cbn [l_iter] in E; [discriminate E|].
  destruct (l_getitem l i) as [y|[]] eqn:G; try discriminate E.
  2:{ injection E as <-. destruct k; discriminate K. }
  destruct (l_iter fuel l (i + 1)) as [ys|] eqn:E'; [|discriminate E]. cbn [bind] in E. injection E as <-.
  destruct k as [|k]; cbn [nth_error] in K.
  - injection K as <-. rewrite Z.add_0_r. exact G.
  - rewrite <- (IH _ _ E' k x K). f_equal. lia.
Qed.
(** iterating over a List *)
Lemma iter_items l items : py_iter (PList l) = Ok items -> py_len (PList l) = Ok (blen items) ->
  l_count l = blen items /\
  forall i, 0 <= i < l_count l -> exists x, l_getitem l i = Ok x /\ nth_error items (Z.to_nat i) = Some (pv_item x).
Proof.
  cbn [py_iter py_len]. intros E C. destruct (l_iter _ l 0) as [xs|] eqn:I; [|discriminate E]. cbn [bind] in E. apply ok_inj in E. subst items.
  destruct (l_count l <? 0); [discriminate C|]. apply ok_inj in C. split; [exact C|]. intros i Hi.
  unfold blen in C. rewrite map_length in C.
  destruct (nth_error xs (Z.to_nat i)) as [x|] eqn:N; [|apply nth_error_None in N; lia].
  exists x. split; [|apply map_nth_error; exact N]. rewrite <- (iter_nth l _ _ _ I _ _ N). f_equal. lia.
Qed.

(** the items of a list have the type of the list *)
Definition item_ok (t : itype) (x : item) : Prop :=
  match t with
  | ITVoid => x = INone
  | ITBool => exists b, x = IBool b
  | ITPrim f => exists z, x = IInt z /\ in_fmt f z
  | ITFloat dbl => exists b, x = IFloat dbl b /\ bits (if dbl then double else single) b
  | ITStruct _ _ => exists o, x = IObj o
  | ITText _ => exists b, x = IBytes b
  | ITList t' => exists m, x = IList m /\ l_it m = t'
  end.
Lemma float_bits_ok (dbl : bool) z : in_fmt (float_fmt dbl) z -> bits (if dbl then double else single) z.
Proof.
  unfold in_fmt, bits, fmin, fmax. destruct dbl; cbn [float_fmt fsigned fsize].
  - change (fs double) with (2 ^ 63). lia.
  - change (fs single) with (2 ^ 31). lia.
Qed.
Lemma list_init_it s a b c t l : list_init s a b c t = Ok l -> l_it l = t.
Proof. unfold list_init. destruct (_ =? _); [destruct (read_ptr s a); [|discriminate]; cbn [bind]|]; intros E; apply BaseFacts.ok_inj in E; subst l; reflexivity. Qed.
Lemma getitem_type l i x : l_getitem l i = Ok x -> item_ok (l_it l) x.
Proof.
  unfold l_getitem. cbv zeta. destruct (_ && _); [|discriminate]. unfold read_item. set (j := if i <? 0 then _ else _). clearbody j.
  destruct (l_it l); cbv zeta; cbn [item_ok]; intros E.
  - apply ok_inj in E. auto.
  - destruct (read_primitive _ _ _); [|discriminate]. cbn [bind] in E. apply ok_inj in E. eauto.
  - destruct (read_primitive_cases (l_seg l) (l_off l + j * l_len l) f) as [(z & R & B1 & B2)|R]; rewrite R in E; [|discriminate].
    cbn [bind] in E. apply ok_inj in E. exists z. split; [auto|].
    unfold read_primitive in R. replace (_ || _) with false in R by lia. rewrite unpack_from_in in R by lia. apply ok_inj in R. subst z.
    apply fdec_range. apply blen_sub; pose proof (fsize_pos f); lia.
  - destruct (read_primitive_cases (l_seg l) (l_off l + j * l_len l) (float_fmt dbl)) as [(z & R & B1 & B2)|R]; rewrite R in E; [|discriminate].
    cbn [bind] in E. apply ok_inj in E. exists z. split; [auto|].
    unfold read_primitive in R. replace (_ || _) with false in R by lia. rewrite unpack_from_in in R by lia. apply ok_inj in R. subst z.
    pose proof (fdec_range (float_fmt dbl) (sub (sbuf (l_seg l)) (l_off l + j * l_len l) (fsize (float_fmt dbl)))) as X.
    rewrite blen_sub in X by (pose proof (fsize_pos (float_fmt dbl)); lia). specialize (X eq_refl).
    apply float_bits_ok. exact X.
  - destruct (init_from_buffer _ _ _ _); [|discriminate]. cbn [bind] in E. apply ok_inj in E. eauto.
  - destruct (read_ptr _ _); [|discriminate]. cbn [bind] in E.
    destruct (if kind _ =? FAR then _ else _) as [[q p']|]; [|discriminate]. cbn [bind] in E.
    destruct (read_str _ _ _ _ _); [|discriminate]. cbn [bind] in E. apply ok_inj in E. eauto.
  - destruct (read_ptr _ _); [|discriminate]. cbn [bind] in E.
    destruct (if kind _ =? FAR then _ else _) as [[q p']|]; [|discriminate]. cbn [bind] in E.
    destruct (list_init _ _ _ _ _) as [m|] eqn:F; [|discriminate]. cbn [bind] in E. apply ok_inj in E. exists m. split; [auto|]. eapply list_init_it; exact F.
Qed.

Lemma list_val_iter t x v : list_val t x v -> x <> PNone -> exists items, py_len x = Ok (blen items) /\ py_iter x = Ok items.
Proof. destruct t; cbn [list_val]; (intros [[E _]|(items & A & B & _)] N; [contradiction|eauto]). Qed.
Lemma same_list_items t x l : same_list t x l -> x <> PNone -> forall items, py_iter x = Ok items -> l_count l = blen items /\
    forall i x, nth_error items i = Some x ->
      match t with
      | ITVoid => l_getitem l (Z.of_nat i) = Ok INone
      | ITBool => exists b, x = PBool b /\ l_getitem l (Z.of_nat i) = Ok (IBool b)
      | ITPrim f => exists z, as_int x = Ok z /\ l_getitem l (Z.of_nat i) = Ok (IInt z)
      | ITFloat dbl => exists b, float_val x b /\ l_getitem l (Z.of_nat i) = Ok (IFloat dbl (float_bits dbl b))
      | ITStruct _ _ => exists o o', x = PObj o /\ l_getitem l (Z.of_nat i) = Ok (IObj o') /\ same_struct o o'
      | ITText _ => exists b, as_bytes x = Ok b /\ l_getitem l (Z.of_nat i) = Ok (IBytes b)
      | ITList t' => exists l', l_getitem l (Z.of_nat i) = Ok (IList l') /\ same_list t' x l'
      end.
Proof.
  destruct t; cbn [same_list]; (intros [[E _]|(its & A & B & C)] N items I; [contradiction|]); rewrite A in I; apply ok_inj in I; subst its; split; assumption.
Qed.
Lemma inner_val t x v : list_val (ITList t) x v -> x <> PNone -> forall items, py_iter x = Ok items ->
  forall i y, nth_error items i = Some y -> exists w, list_val t y w.
Proof.
  cbn [list_val]. intros [[E _]|(its & A & B & vs & F & _)] N items I i y K; [contradiction|]. rewrite B in I. apply ok_inj in I. subst its.
  clear - F K. revert i K. induction F as [|a b l1 l2 H F IH]; intros [|i] K; cbn [nth_error] in K; try discriminate K; [|eauto].
  injection K as <-. eauto.
Qed.

Lemma copied t : forall l l' v, l_it l = t -> list_val t (PList l) v -> same_list t (PList l) l' -> copy_of t l l'.
Proof.
  induction t as [| | |dbl| | |t IH]; intros l l' v T V S.
  all: destruct (list_val_iter _ _ _ V ltac:(discriminate)) as (items & LN & IT); destruct (iter_items l items IT LN) as [C NX];
    destruct (same_list_items _ _ _ S ltac:(discriminate) items IT) as [C' SI]; cbn [copy_of]; (split; [congruence|]); intros i Hi;
    destruct (NX i Hi) as (x & G & K); exists x; specialize (SI _ _ K); rewrite Z2Nat.id in SI by lia; pose proof (getitem_type _ _ _ G) as TY; rewrite T in TY; cbn [item_ok] in TY.
  - exists INone. auto.
  - exfalso. cbn [list_val] in V. destruct V as [[X _]|(its & _ & _ & [])]. discriminate X.
  - destruct TY as (z & -> & _). destruct SI as (z' & A & G'). cbn [pv_item as_int] in A. apply ok_inj in A. subst z'.
    exists (IInt z). eauto.
  - destruct TY as (b & -> & B). destruct SI as (b' & (A & _) & G'). cbn [pv_item as_float] in A. destruct dbl.
    + injection A as <-. exists (IFloat true b). cbn [float_bits] in G'. eauto.
    + injection A as <-. exists (IFloat false (to32 (to64 b))). cbn [float_bits] in G'. split; [exact G|]. split; [exact G'|].
      exists b, (to32 (to64 b)). split; [reflexivity|]. split; [reflexivity|].
      destruct (Properties_Float.C73_read b B) as (y & Y & _ & _ & F1 & F2 & F3). cbn [Properties_Float.seen] in Y. injection Y as <-.
      destruct (Ztrichotomy (body single b) (fi single)) as [L|[E|GT]].
      * left. apply F1. exact L.
      * left. apply F2. exact E.
      * right. assert (N : is_nan single b) by (unfold is_nan; lia). split; [exact N|apply F3, N].
  - destruct TY as (o & ->). destruct SI as (o1 & o' & A & G' & SS). cbn [pv_item] in A. injection A as <-.
    exists (IObj o'). split; [exact G|]. split; [exact G'|]. eauto.
  - destruct TY as (b & ->). destruct SI as (b' & A & G'). exists (IBytes b'). split; [exact G|]. split; [exact G'|].
    exists b. split; [reflexivity|]. destruct b as [b|]; cbn [pv_item as_bytes] in A; apply ok_inj in A; congruence.
  - destruct TY as (m & -> & Tm). destruct SI as (m' & G' & SS). exists (IList m'). split; [exact G|]. split; [exact G'|].
    exists m, m'. split; [reflexivity|]. split; [reflexivity|]. destruct (inner_val _ _ _ V ltac:(discriminate) items IT _ _ K) as (w & W).
    cbn [pv_item] in W, SS. eapply IH; eassumption.
Qed.

(** ** The theorems *)

(** The list read back is a copy of the argument *)
Theorem C76_copy : forall fuel, (2 <= fuel)%nat -> forall sn, layout_ok sn -> forall kw vals,
  call_ok fuel (filter visible (sn_fields sn)) kw vals ->
  (length (members_given (filter visible (sn_fields sn)) kw) <= 1)%nat ->
  call_size sn kw vals <= 2 ^ 32 ->
  exists o, ctor fuel sn kw = Ok o /\
  forall n i dc t off ex d l, In (FSlot n i dc (TList t) off ex d) (sn_fields sn) ->
    assoc kw n = Some (PList l) -> l_it l = t ->
    exists l', get_slot o (sn_utag sn) (FSlot n i dc (TList t) off ex d) = Ok (GList l') /\ copy_of t l l'.
Proof.
  intros fuel Hf sn L kw vals C M SZ. destruct (built_ptrs fuel Hf sn L kw vals C M SZ) as (o & E & H). exists o. split; [exact E|].
  intros n i dc t off ex d l I A T. destruct (proj1 (H _ I) (PList l) A ltac:(discriminate)) as (l' & G & S). exists l'. split; [exact G|].
  assert (V : In (FSlot n i dc (TList t) off ex d) (filter visible (sn_fields sn))).
  { apply filter_In. split; [exact I|]. destruct dc; reflexivity. }
  destruct (call_given _ _ _ _ C _ _ V A) as (_ & v & _ & LV & _). eapply copied; eassumption.
Qed.
Print Assumptions C76_copy.

(** Which lists are accepted: any list whose items can be read, of voids,
    integers or floats ... *)
Lemma iter_read l xs : items_are l xs -> py_len (PList l) = Ok (blen (map pv_item xs)) /\ py_iter (PList l) = Ok (map pv_item xs).
Proof.
  intros I. pose proof I as [C _]. cbn [py_len py_iter]. rewrite (iter_list l xs) by (try exact I; rewrite C; unfold blen; lia).
  destruct (Z.ltb_spec (l_count l) 0) as [X|X]; [pose proof (blen_nonneg xs); lia|]. rewrite C, blen_map. split; reflexivity.
Qed.
Lemma items_typed l xs : items_are l xs -> Forall (item_ok (l_it l)) xs.
Proof.
  intros I. apply Forall_forall. intros x Hx. apply In_nth_error in Hx as (k & K).
  apply (getitem_type l (Z.of_nat k)). destruct I as [C R]. specialize (R k x K). unfold l_getitem. cbv zeta.
  assert (0 <= Z.of_nat k < l_count l). { rewrite C. unfold blen. assert (k < length xs)%nat by (apply nth_error_Some; congruence). lia. }
  destruct (_ <? 0) eqn:?; [lia|]. destruct (_ && _) eqn:?; [exact R|lia].
Qed.
Definition small (l : lobj) (xs : list item) : Prop :=
  l_count l < 2 ^ 28 /\ forall b, In (IBytes (Some b)) xs -> blen b < 2 ^ 28 - 1.
Theorem C76_accepts : forall l xs, items_are l xs -> small l xs ->
  match l_it l with ITVoid | ITPrim _ | ITFloat _ => True | ITText a => a = 0 \/ a = -1 | _ => False end ->
  exists v, list_val (l_it l) (PList l) v /\ limv v /\ (vdepth v <= 2)%nat.
Proof.
  intros l xs I (SC & ST) T. destruct (iter_read l xs I) as [LN IT]. pose proof (items_typed l xs I) as TY. pose proof (proj1 I) as C.
  assert (LM : forall t b, limv (VList t (blen (map pv_item xs)) b)).
  { intros t b. unfold limv. cbn [vall lim1]. rewrite blen_map. split; [lia|exact Logic.I]. }
  destruct (l_it l) as [| |f|dbl|ds ps|a|t] eqn:EL; try contradiction.
  - exists (VList 0 (blen (map pv_item xs)) []). split; [|split; [apply LM|cbn; lia]]. right. eauto.
  - assert (F : exists zs, Forall2 (int_val f) (map pv_item xs) zs).
    { clear - TY. induction TY as [|x xs (z & -> & Z) TY (zs & IH)]; [exists []; constructor|].
      exists (z :: zs). constructor; [|exact IH]. split; [left; reflexivity|exact Z]. }
    destruct F as (zs & F). eexists. split; [right; exists (map pv_item xs); split; [exact LN|]; split; [exact IT|]; exists zs; split; [exact F|reflexivity]|].
    split; [apply LM|cbn; lia].
  - assert (F : exists zs, Forall2 float_val (map pv_item xs) zs).
    { clear - TY. induction TY as [|x xs (z & -> & Z) TY (zs & IH)]; [exists []; constructor|].
      exists ((if dbl then z else to64 z) :: zs). constructor; [|exact IH]. split; [reflexivity|].
      assert (B : bits double (if dbl then z else to64 z)) by (destruct dbl; [exact Z|apply Properties_Float.bits_to64; exact Z]).
      unfold bits in B. change (fs double) with (2 ^ 63) in B. unfold in_fmt, fmin, fmax. cbn [fsigned fsize]. lia. }
    destruct F as (zs & F). eexists. split; [right; exists (map pv_item xs); split; [exact LN|]; split; [exact IT|]; exists zs; split; [exact F|reflexivity]|].
    split; [apply LM|cbn; lia].
  - assert (F : exists vs, Forall2 (text_val (negb (a =? 0))) (map pv_item xs) vs /\ Forall limv vs /\ (list_max (map vdepth vs) <= 1)%nat /\ blen vs = blen xs).
    { clear - TY ST. revert ST. induction TY as [|x xs TX TY IH]; intros ST. { exists []. split; [constructor|]. split; [constructor|]. split; [cbn; lia|reflexivity]. }
      destruct TX as (b & ->). destruct IH as (vs & IH & LV & LD & LE); [intros b' H; apply ST; right; exact H|].
      exists ((match b with Some b => text_value (negb (a =? 0)) b | None => VNull end) :: vs).
      split; [constructor; [destruct b; reflexivity|exact IH]|]. split; [constructor; [|exact LV]|].
      - destruct b as [b|]; [|unfold limv; cbn; tauto]. specialize (ST b (or_introl eq_refl)). unfold text_value.
        destruct (negb _); unfold limv; cbn [vall lim1]; (split; [lia|exact Logic.I]).
      - rewrite !blen_cons, LE. split; [|reflexivity]. cbn [map list_max fold_right]. destruct b as [b|]; [|cbn [vdepth]; unfold list_max in LD; lia].
        unfold text_value. destruct (negb _); cbn [vdepth]; unfold list_max in LD; lia. }
    destruct F as (vs & F & LV & LD & LE). exists (VPtrs vs). split; [right; exists (map pv_item xs); split; [exact LN|]; split; [exact IT|]; split; [exact T|]; exists vs; split; [exact F|reflexivity]|].
    split; [apply vall_ptrs; split; [cbn [lim1]; lia|exact LV]|]. cbn [vdepth]. lia.
Qed.
Print Assumptions C76_accepts.

(** Node(l=lst) with the list [1, -2] of another message *)
Definition lst : lobj :=
  {| l_seg := {| sbuf := fenc Fh 1 ++ fenc Fh (-2) ++ zeros 4; soffs := None |}; l_off := 0; l_stag := 3; l_tag := 0; l_count := 2; l_ioff := 0; l_len := 2; l_it := ITPrim Fh |}.
Lemma lst_items : items_are lst [IInt 1; IInt (-2)].
Proof. split; [reflexivity|]. intros [|[|i]] x E; cbn in E; [injection E as <-; vm_compute; reflexivity|injection E as <-; vm_compute; reflexivity|destruct i; discriminate E]. Qed.
Definition kw2 : list (string * pyval) := [("l", PList lst)].
Definition vals2 (n : string) : list value := [VList 3 2 (concat (map (fenc Fh) [1; -2]))].
Example C76_ex : call_ok 4 (filter visible (sn_fields node)) kw2 vals2 /\
  (length (members_given (filter visible (sn_fields node)) kw2) <= 1)%nat /\ call_size node kw2 vals2 <= 2 ^ 32 /\
  In fl (sn_fields node) /\ assoc kw2 (f_name fl) = Some (PList lst) /\ l_it lst = ITPrim Fh.
Proof.
  split; [|split; [vm_compute; repeat constructor|split; [vm_compute; discriminate|split; [cbn; tauto|split; reflexivity]]]].
  constructor.
  - intros n x [E|[]]. injection E as <- <-. exists fl. split; [cbn; tauto|reflexivity].
  - intros f x I. change (filter visible (sn_fields node)) with (sn_fields node) in I. cbn [node sn_fields In] in I.
    decompose [or] I; try contradiction; subst f;
      match goal with |- assoc kw2 ?n = _ -> _ => let r := eval vm_compute in (assoc kw2 n) in change (assoc kw2 n) with r end;
      intros E; try discriminate E; assert (Y : x = PList lst) by (injection E; auto); subst x; clear E; (split; [intros _; discriminate|]).
    exists (VList 3 2 (concat (map (fenc Fh) [1; -2]))). split; [reflexivity|].
    destruct (iter_read lst _ lst_items) as [LN IT]. split; [|split].
    + right. exists [PInt 1; PInt (-2)]. split; [exact LN|]. split; [exact IT|]. exists [1; -2]. split; [|reflexivity].
      repeat constructor; unfold in_fmt; cbn; lia.
    + vm_compute. repeat split; discriminate.
    + cbn. lia.
  - intros f I A D. change (filter visible (sn_fields node)) with (sn_fields node) in I. cbn [node sn_fields In] in I.
    decompose [or] I; try contradiction; subst f; try discriminate D; try (vm_compute in A; discriminate A); cbn; try discriminate; try exact Logic.I; repeat split; discriminate.
Qed.
Example C76_accepts_ex : items_are lst [IInt 1; IInt (-2)] /\ small lst [IInt 1; IInt (-2)].
Proof. split; [exact lst_items|]. split; [vm_compute; reflexivity|]. intros b [H|[H|[]]]; discriminate H. Qed.
