(** Property theorems C55-C57: shortrepr(), string literals, UTF-8.

    [view fp S fuel c d vs] (ReprSpec.v): what there is to say about the value
    (data [d], pointers [vs]) according to class [c] of the schema [S]: the
    fields which are shown and their contents, as an abstract tree; [print]:
    that tree in the text format of the capnp tool; [parse]: a reader of that
    format, driven by the schema. [fits_class]: the pointers of the value are
    of the kinds the schema says. [clean]: the tree has no text, enum member
    or AnyPointer that capnpy prints in another way than capnp reads. *)
From Coq Require Import Strings.String.
From Verif Require Import Base BaseFacts Spec Ptr Segment Builder Struct List Enc Query Case CaseFacts Enum CopyList
  EncDen Copy Message MsgFinal ObjFacts DumpFacts Ctor CtorSpec CtorProps Utf8 Loader Repr ReprSpec ReprFacts ReprParse.
From Coq Require Import Lists.List.
Local Notation length := Datatypes.length.

(** ** C55 *)

(** The text is a function of the value: nothing else in the buffer has an
    influence, and the errors too are the same. *)
Theorem C55_value : forall fp S fuel c o d vs,
  schema_ok S -> obj_den o d vs -> fits_class S c d vs ->
  shortrepr fuel fp S c o = do x <- view fp S fuel c d vs; Ok (print x).
Proof. intros. now apply shortrepr_view. Qed.
Print Assumptions C55_value.

(** So it is the same after compact() and after dumps() and loads(). *)
Theorem C55_compact : forall fp S c o d vs n,
  schema_ok S -> obj_den o d vs -> fits_class S c d vs -> aligned o -> limv (VStruct d vs) ->
  8 + blen (content (VStruct d vs)) <= 2 ^ 32 -> (2 * vdepth (VStruct d vs) <= n)%nat ->
  exists o', o_compact n o = Ok o' /\ forall fuel, shortrepr fuel fp S c o' = shortrepr fuel fp S c o.
Proof.
  intros fp S c o d vs n K O F A L H N. destruct (compact_den o d vs n O A L H N) as (o' & E & O' & _).
  exists o'. split; [exact E|]. intros fuel. now rewrite (shortrepr_view fp S K fuel c o' d vs), (shortrepr_view fp S K fuel c o d vs).
Qed.
Print Assumptions C55_compact.
Theorem C55_dumps_loads : forall fp S c o d vs n,
  schema_ok S -> obj_den o d vs -> fits_class S c d vs -> aligned o -> limv (VStruct d vs) ->
  16 + blen (content (VStruct d vs)) <= 2 ^ 32 -> (2 * vdepth (VStruct d vs) <= n)%nat ->
  exists msg o', dumps n o false = Ok msg /\ loads msg = Ok (Some o') /\
    forall fuel, shortrepr fuel fp S c o' = shortrepr fuel fp S c o.
Proof.
  intros fp S c o d vs n K O F A L H N.
  destruct (dumps_loads o d vs n false O A L H N ltac:(discriminate)) as (msg & o' & E & E' & O').
  exists msg, o'. split; [exact E|]. split; [exact E'|]. intros fuel.
  now rewrite (shortrepr_view fp S K fuel c o' d vs), (shortrepr_view fp S K fuel c o d vs).
Qed.
Print Assumptions C55_dumps_loads.

(** The text can be read back: all of it, with any sufficient fuel, and what
    is read is what the value is. *)
Theorem C55_roundtrip : forall fp S fuel c o d vs x,
  schema_ok S -> obj_den o d vs -> fits_class S c d vs ->
  view fp S fuel c d vs = Ok x -> clean S (RStruct c) x ->
  exists t k, shortrepr fuel fp S c o = Ok t /\ forall n, (k <= n)%nat -> parse S n (RStruct c) t = Some (x, []).
Proof.
  intros fp S fuel c o d vs x K O F V C. destruct (parse_print S _ x C) as (k & P).
  exists (print x), k. rewrite (shortrepr_view fp S K fuel c o d vs O F), V. split; [reflexivity|].
  intros n N. specialize (P n N [] [] ltac:(now left) Logic.I). cbn [app] in P. now rewrite app_nil_r in P.
Qed.
Print Assumptions C55_roundtrip.

(** Two objects with the same text show the same fields with the same
    contents. *)
Lemma view_in fp S rec c d vs : forall l xs, view_fields fp S rec c d vs l = Ok xs ->
  (forall n x, In (n, x) xs -> exists f, In f l /\ rf_cap f = n /\ shown_field c d vs f = true /\ view_field fp S rec d vs f = Ok x) /\
  (forall f, In f l -> shown_field c d vs f = true -> exists x, view_field fp S rec d vs f = Ok x /\ In (rf_cap f, x) xs).
Proof.
  induction l as [|g l IH]; intros xs H; cbn [view_fields] in H.
  { injection H as <-. split; [intros n x []|intros f []]. }
  destruct (is_nullable g && _); [discriminate|].
  destruct (view_fields fp S rec c d vs l) as [ys|] eqn:E; [|destruct (shown_field c d vs g); [destruct (view_field fp S rec d vs g)|]; discriminate].
  destruct (IH ys eq_refl) as (A & B). destruct (shown_field c d vs g) eqn:Sh.
  - destruct (view_field fp S rec d vs g) as [y|] eqn:V; [|discriminate]. cbn in H. injection H as <-. split.
    + intros n x [Ex|I]; [injection Ex as <- <-; exists g; repeat split; auto; now left|].
      destruct (A n x I) as (f & I1 & I2). exists f. split; [now right|exact I2].
    + intros f [<-|I] Sf; [exists y; split; [exact V|now left]|]. destruct (B f I Sf) as (x & I1 & I2). exists x. split; [exact I1|now right].
  - cbn in H. injection H as <-. split.
    + intros n x I. destruct (A n x I) as (f & I1 & I2). exists f. split; [now right|exact I2].
    + intros f [<-|I] Sf; [congruence|auto].
Qed.

Theorem C55_faithful : forall fp S fuel c o1 d1 vs1 x1 o2 d2 vs2 x2,
  schema_ok S -> obj_den o1 d1 vs1 -> obj_den o2 d2 vs2 -> fits_class S c d1 vs1 -> fits_class S c d2 vs2 ->
  view fp S (Datatypes.S fuel) c d1 vs1 = Ok x1 -> view fp S (Datatypes.S fuel) c d2 vs2 = Ok x2 ->
  clean S (RStruct c) x1 -> clean S (RStruct c) x2 -> NoDup (map rf_cap (rc_fields (S c))) ->
  shortrepr (Datatypes.S fuel) fp S c o1 = shortrepr (Datatypes.S fuel) fp S c o2 ->
  x1 = x2 /\
  forall f, In f (rc_fields (S c)) ->
    shown_field (S c) d1 vs1 f = shown_field (S c) d2 vs2 f /\
    (shown_field (S c) d1 vs1 f = true ->
     view_field fp S (view fp S fuel) d1 vs1 f = view_field fp S (view fp S fuel) d2 vs2 f).
Proof.
  intros fp S fuel c o1 d1 vs1 x1 o2 d2 vs2 x2 K O1 O2 F1 F2 V1 V2 C1 C2 ND E.
  rewrite (shortrepr_view fp S K _ c o1 d1 vs1 O1 F1), (shortrepr_view fp S K _ c o2 d2 vs2 O2 F2), V1, V2 in E.
  cbn [bind] in E. injection E as E. pose proof (print_inj S _ x1 x2 C1 C2 E) as <-. split; [reflexivity|].
  cbn [view] in V1, V2. destruct (view_fields fp S (view fp S fuel) (S c) d1 vs1 (rc_fields (S c))) as [xs|] eqn:W1; [|discriminate].
  destruct (view_fields fp S (view fp S fuel) (S c) d2 vs2 (rc_fields (S c))) as [ys|] eqn:W2; [|discriminate].
  cbn [bind] in V1, V2. injection V1 as <-. injection V2 as ->.
  destruct (view_in _ _ _ _ _ _ _ _ W1) as (A1 & B1). destruct (view_in _ _ _ _ _ _ _ _ W2) as (A2 & B2).
  assert (U : forall f g, In f (rc_fields (S c)) -> In g (rc_fields (S c)) -> rf_cap f = rf_cap g -> f = g).
  { clear - ND. induction (rc_fields (S c)) as [|h l IH]; [intros f g []|]. cbn [map] in ND. inversion ND as [|? ? N1 N2 Eq]; subst.
    intros f g [<-|If] [<-|Ig] Ecap; auto; exfalso; apply N1; [rewrite Ecap|rewrite <- Ecap]; now apply in_map. }
  intros f If. destruct (shown_field (S c) d1 vs1 f) eqn:S1.
  - destruct (B1 f If S1) as (x & Vx & Ix). destruct (A2 _ _ Ix) as (g & Ig & Cg & Sg & Vg). rewrite (U g f Ig If Cg) in *. split; [congruence|]. intros _. congruence.
  - split; [|discriminate]. destruct (shown_field (S c) d2 vs2 f) eqn:S2; [|reflexivity].
    destruct (B2 f If S2) as (x & Vx & Ix). destruct (A1 _ _ Ix) as (g & Ig & Cg & Sg & Vg). rewrite (U g f Ig If Cg) in *. congruence.
Qed.
Print Assumptions C55_faithful.

(** *** Examples *)

(** struct Thing { x @0 :Int64; name @1 :Text; blob @2 :Data;
      tags @3 :List(Text); child @4 :Thing; flag @5 :Bool; color @6 :Color;
      union { a @7 :Text; b @8 :Int16; } } *)
Definition color : rty := REnum (lit "Color") [lit "red"; lit "dark_red"] [lit "red"; lit "darkRed"].
Definition thing_fields (n : nat) : list rfield :=
  [ mkrf (lit "x") None (KSlot (RPrim Fq) 0 0);
    mkrf (lit "name") None (KSlot (RText false) 0 0);
    mkrf (lit "blob") None (KSlot RData 1 0);
    mkrf (lit "tags") None (KSlot (RList (RText true)) 2 0);
    mkrf (lit "child") None (KSlot (RStruct n) 3 0);
    mkrf (lit "flag") None (KSlot RBool 64 0);
    mkrf (lit "color") None (KSlot color 5 0);
    mkrf (lit "a") (Some 0) (KSlot (RText false) 4 0);
    mkrf (lit "b") (Some 1) (KSlot (RPrim Fh) 7 0) ].
Definition thing : schema := fun _ => mkrc 2 5 (Some 6) (thing_fields 0).
Definition fp0 : floats := mkfloats dec dec.
Definition bstr (s : string) : bytes := map Zb (lit s).
Definition vtext (s : string) : value := VList 2 (blen (bstr s) + 1) (bstr s ++ [Zb 0]).
Definition thing_d (x flag color tag b : Z) : bytes :=
  le_enc 8 x ++ le_enc 2 flag ++ le_enc 2 color ++ le_enc 2 tag ++ le_enc 2 b.
Definition child_vs : list value := [VNull; VNull; VNull; VNull; VNull].
Definition thing_vs : list value :=
  [vtext "it's"; VList 2 4 [Zb 0; Zb 255; Zb 34; Zb 39]; VPtrs [vtext "one"; vtext "two"];
   VStruct (thing_d 7 0 0 1 (2 ^ 16 - 5)) child_vs; VNull].
Definition obj_of (d : bytes) (vs : list value) : obj :=
  {| o_seg := {| sbuf := content (VStruct d vs); soffs := None |};
     o_off := 0; o_ptrs := 8 * (blen d / 8); o_ds := blen d / 8; o_ps := blen vs |}.
Definition thing_obj : obj := obj_of (thing_d (2 ^ 64 - 12) 1 0 0 0) thing_vs.

Lemma obj_of_den d vs : wfv (VStruct d vs) -> blen (content (VStruct d vs)) <= 2 ^ 32 -> obj_den (obj_of d vs) d vs.
Proof.
  intros W H. unfold obj_of. replace (8 * (blen d / 8)) with (0 + 8 * (blen d / 8)) by lia. apply enc_obj; [exact W|lia|exact H|].
  unfold at_. cbn [sbuf slen]. unfold slen. cbn [sbuf]. split; [lia|]. split; [lia|]. apply sub_all.
Qed.
Lemma thing_ok : schema_ok thing.
Proof.
  intros c. cbn [thing rc_utag rc_fields]. split; [intros u H; injection H as <-; lia|].
  intros f H. cbn [thing_fields In] in H.
  repeat (destruct H as [<-|H]; [split; [discriminate|cbn; lia]|]). destruct H.
Qed.
Lemma thing_den : obj_den thing_obj (thing_d (2 ^ 64 - 12) 1 0 0 0) thing_vs.
Proof. apply obj_of_den; [repeat split; vm_compute; congruence|vm_compute; discriminate]. Qed.
Lemma child_fits c x flag color tag b : fits_class thing c (thing_d x flag color tag b) child_vs.
Proof.
  constructor.
  - intros f t off d H _ _ E. cbn [thing rc_fields thing_fields In] in H. replace (v_ptr child_vs off) with VNull; [constructor|].
    unfold v_ptr. repeat (destruct H as [<-|H]; [cbn in E; injection E as <- <- <-; reflexivity|]). destruct H.
  - intros f g n H _ E. cbn [thing rc_fields thing_fields In] in H. repeat (destruct H as [<-|H]; [discriminate E|]). destruct H.
Qed.
Lemma thing_fits : fits_class thing 0 (thing_d (2 ^ 64 - 12) 1 0 0 0) thing_vs.
Proof.
  constructor.
  - intros f t off d H _ P E. cbn [thing rc_fields thing_fields In] in H.
    repeat (destruct H as [<-|H]; [cbn in E; injection E as <- <- <-; try (destruct P; fail)|]); try contradiction.
    + apply fits_text. vm_compute. discriminate.
    + apply fits_data. lia.
    + apply fits_list; [discriminate|]. intros i Hi. change (vcount _) with 2 in Hi.
      assert (i = 0 \/ i = 1) as [-> | ->] by lia; (eexists; split; [vm_compute; reflexivity|apply fi_text]).
    + apply fits_struct, child_fits.
    + apply fits_null.
  - intros f g n H _ E. cbn [thing rc_fields thing_fields In] in H. repeat (destruct H as [<-|H]; [discriminate E|]). destruct H.
Qed.
Example C55_ex : schema_ok thing /\ obj_den thing_obj (thing_d (2 ^ 64 - 12) 1 0 0 0) thing_vs /\
  fits_class thing 0 (thing_d (2 ^ 64 - 12) 1 0 0 0) thing_vs /\
  shortrepr 2 fp0 thing 0 thing_obj = Ok (lit
    "(x = -12, name = ""it\'s"", blob = ""\x00\xff\""\'"", tags = [""one"", ""two""], child = (x = 7, flag = false, color = red, b = -5), flag = true, color = red)").
Proof. split; [exact thing_ok|]. split; [exact thing_den|]. split; [exact thing_fits|]. vm_compute. reflexivity. Qed.
Definition thing_x : tval :=
  XStruct [(lit "x", XInt (-12)); (lit "name", XText (lit "it's")); (lit "blob", XData [Zb 0; Zb 255; Zb 34; Zb 39]);
           (lit "tags", XList [XText (lit "one"); XText (lit "two")]);
           (lit "child", XStruct [(lit "x", XInt 7); (lit "flag", XBool false); (lit "color", XEnum (lit "red")); (lit "b", XInt (-5))]);
           (lit "flag", XBool true); (lit "color", XEnum (lit "red"))].
Ltac in_cases H := repeat match type of H with
  | (_ = _) \/ _ => destruct H as [H|H]; [injection H as <- <-|]
  | False => destruct H
  end.
Lemma plain_clean s : forallb (fun c => negb ((c =? 10) || (c =? 92))) s = true -> clean_text s.
Proof.
  intros H. rewrite forallb_forall in H. split; [intros I; discriminate (H _ I)|].
  intros i E. discriminate (H _ (nth_error_In _ _ E)).
Qed.
Lemma thing_clean : clean thing (RStruct 0) thing_x.
Proof.
  assert (E : forall s, s = lit "red" -> clean thing color (XEnum s)).
  { intros s ->. constructor; [now left|reflexivity|discriminate]. }
  constructor; cbn [In thing rc_fields].
  - intros n x H. in_cases H; (split; [reflexivity|eexists; vm_compute; reflexivity]).
  - intros n x f H Ef. in_cases H; vm_compute in Ef; injection Ef as <-; cbn [rfield_type rf_kind].
    + constructor.
    + constructor. now apply plain_clean.
    + constructor.
    + constructor. cbn [In]. intros x [<-|[<-|[]]]; constructor; now apply plain_clean.
    + constructor; cbn [In thing rc_fields].
      * intros n x H. in_cases H; (split; [reflexivity|eexists; vm_compute; reflexivity]).
      * intros n x f H Ef. in_cases H; vm_compute in Ef; injection Ef as <-; cbn [rfield_type rf_kind]; [constructor|constructor|now apply E|constructor].
    + constructor.
    + now apply E.
Qed.
Example C55_clean_ex :
  view fp0 thing 2 0 (thing_d (2 ^ 64 - 12) 1 0 0 0) thing_vs = Ok thing_x /\ clean thing (RStruct 0) thing_x /\
  parse thing 4 (RStruct 0) (print thing_x) = Some (thing_x, []).
Proof. split; [vm_compute; reflexivity|]. split; [exact thing_clean|vm_compute; reflexivity]. Qed.

(** *** Where it cannot be read back

    The documentation says that the output of shortrepr is the one of capnp,
    from which the message can be built again. It is not: *)
Definition one (t : rty) : schema := fun _ => mkrc 1 1 None [mkrf (lit "f") None (KSlot t 0 0)].
Definition show (S : schema) (d : bytes) (vs : list value) : res str := shortrepr 3 fp0 S 0 (obj_of d vs).
Definition back (S : schema) (t : string) : option (tval * str) := parse S 9 (RStruct 0) (lit t).
Definition zeros : bytes := le_enc 8 0.
Theorem C55_roundtrip_refuted :
  (* members of enums are printed under their Python name *)
  (show (one color) (le_enc 8 1) [VNull] = Ok (lit "(f = dark_red)") /\ back (one color) "(f = dark_red)" = None) /\
  (* lists of enums are printed like Python objects *)
  (show (one (RList color)) zeros [VList 3 1 (le_enc 2 0)] = Ok (lit "(f = [<Color.red: 0>])") /\
   back (one (RList color)) "(f = [<Color.red: 0>])" = None) /\
  (* a member this version of the schema does not know *)
  (show (one color) (le_enc 8 7) [VNull] = Ok (lit "(f = unknown<7>)") /\ back (one color) "(f = unknown<7>)" = None) /\
  (* AnyPointer *)
  (show (one RAny) zeros [vtext "x"] = Ok (lit "(f = ???)") /\ back (one RAny) "(f = ???)" = None).
Proof. vm_compute. repeat split. Qed.
Print Assumptions C55_roundtrip_refuted.

(** And it can fail on data that is read without errors by the getters: *)
Definition nullable_union : schema := fun c =>
  match c with
  | O => mkrc 2 1 (Some 0) [mkrf (lit "a") (Some 0) (KSlot RVoid 0 0); mkrf (lit "g") (Some 1) (KGrp 1 true)]
  | _ => mkrc 2 1 None [mkrf (lit "isNull") None (KSlot RBool 64 0)]
  end.
Theorem C55_total_refuted :
  (* a Text that is not UTF-8, with textType = bytes *)
  (show (one (RText false)) zeros [VList 2 2 [Zb 255; Zb 0]] = Err ValueError /\
   get_slot (obj_of zeros [VList 2 2 [Zb 255; Zb 0]]) None (FSlot "f" 0 None TText 0 false 0) = Ok (GBytes [Zb 255])) /\
  (* a null item in a list of texts *)
  show (one (RList (RText false))) zeros [VPtrs [VNull]] = Err AttributeError /\
  (* a list of Data *)
  show (one (RList RData)) zeros [VPtrs [VList 2 1 [Zb 255]]] = Err ValueError /\
  (* a nullable group that is a member of a union, whatever the union holds *)
  show nullable_union (zeros ++ zeros) [VNull] = Err AttributeError.
Proof. vm_compute. repeat split. Qed.
Print Assumptions C55_total_refuted.

(** A union whose tag this version of the schema does not know, and one whose
    first member is null, are both shown as nothing. *)
Definition union1 : schema := fun _ =>
  mkrc 1 1 (Some 0) [mkrf (lit "a") (Some 0) (KSlot (RText false) 0 0); mkrf (lit "b") (Some 1) (KSlot (RPrim Fh) 1 0)].
Theorem C55_unknown_tag_refuted :
  show union1 (le_enc 8 9) [vtext "hello"] = Ok (lit "()") /\ show union1 zeros [VNull] = Ok (lit "()") /\
  show union1 zeros [vtext "hello"] = Ok (lit "(a = ""hello"")") /\ show union1 (le_enc 8 (65536 * 5 + 1)) [vtext "hello"] = Ok (lit "(b = 5)").
Proof. vm_compute. repeat split. Qed.
Print Assumptions C55_unknown_tag_refuted.

(** ** C56: string literals *)

(** Whatever the bytes and whatever follows, the reader gives back the bytes *)
Theorem C56_data : forall b rest, literal (data_repr b ++ rest) = Some (map bZ b, rest).
Proof. exact data_literal. Qed.
Print Assumptions C56_data.
Example C56_data_ex : data_repr (map Zb [39; 34; 92; 10; 0; 200; 65]) = lit """\'\""\\\n\x00\xc8A""".
Proof. reflexivity. Qed.

(** For a text this is so exactly if it has no newline, and no backslash
    except before a single quote. *)
Theorem C56_text : forall s rest,
  literal (text_unicode_repr s ++ rest) = Some (s, rest) <->
  (~ In 10 s /\ forall i, nth_error s i = Some 92 -> nth_error s (S i) = Some 39).
Proof. exact text_literal. Qed.
Print Assumptions C56_text.
Example C56_text_ex : literal (text_unicode_repr (lit "it's a ""quote""") ++ lit ", x = 1)") =
  Some (lit "it's a ""quote""", lit ", x = 1)").
Proof. reflexivity. Qed.
(** Otherwise it is another text, or no text at all, or the literal ends too
    early. *)
Theorem C56_text_refuted :
  literal (text_unicode_repr (lit "C:\new")) = Some (lit "C:" ++ [10] ++ lit "ew", []) /\
  literal (text_unicode_repr [65; 10; 66]) = None /\
  literal (text_unicode_repr (lit "\""x")) = Some (lit "\", lit "x""") /\
  literal (text_unicode_repr (lit "end\")) = None.
Proof. vm_compute. repeat split. Qed.
Print Assumptions C56_text_refuted.

(** ** C57: UTF-8 *)

(** Texts of unicode Text fields are encoded by the constructors and decoded
    by the getters (encode_maybe, decode_maybe): nothing is lost in either
    direction, and decoding fails with a ValueError only. *)
Theorem C57_encode_decode : forall s b, encode_maybe s = Ok b -> decode_maybe b = Ok s.
Proof.
  intros [s|] b H; cbn in H; [|injection H as <-; reflexivity].
  destruct (utf8_encode s) as [x|] eqn:E; [|discriminate]. injection H as <-. cbn. now rewrite (decode_encode _ _ E).
Qed.
Print Assumptions C57_encode_decode.
Theorem C57_decode_encode : forall b s, decode_maybe b = Ok s -> encode_maybe s = Ok b.
Proof.
  intros [b|] s H; cbn in H; [|injection H as <-; reflexivity].
  destruct (utf8_decode b) as [x|] eqn:E; [|discriminate]. injection H as <-. cbn. now rewrite (encode_decode _ _ E).
Qed.
Print Assumptions C57_decode_encode.
Theorem C57_errors : forall b s,
  (match decode_maybe b with Ok _ => True | Err e => e = ValueError end) /\
  (match encode_maybe s with
   | Ok _ => match s with None => True | Some s => forall c, In c s -> 0 <= c < 1114112 /\ ~ 55296 <= c < 57344 end
   | Err e => e = ValueError /\ exists l c, s = Some l /\ In c l /\ (c < 0 \/ 55296 <= c < 57344 \/ 1114112 <= c)
   end).
Proof.
  intros b s. split.
  - destruct b as [b|]; [|exact Logic.I]. cbn. destruct (utf8_decode b) eqn:E; [exact Logic.I|]. exact (decode_error _ _ E).
  - destruct s as [s|]; [|exact Logic.I]. cbn. unfold utf8_encode. destruct (forallb scalar s) eqn:F; cbn.
    + intros c H. rewrite forallb_forall in F. specialize (F c H). unfold scalar in F. lia.
    + split; [reflexivity|]. exists s.
      assert (X : existsb (fun c => negb (scalar c)) s = true).
      { clear - F. induction s as [|c s IH]; [discriminate|]. cbn in *. destruct (scalar c); cbn in *; auto. }
      apply existsb_exists in X. destruct X as (c & I & Hc). exists c. split; [reflexivity|]. split; [exact I|]. unfold scalar in Hc. lia.
Qed.
Print Assumptions C57_errors.

(** In a unicode Text field: the constructor stores the encoding
    (structor.py:155-159) and the getter (struct_.py:251-253) decodes what it
    finds. *)
Theorem C57_field : forall fuel, (2 <= fuel)%nat -> forall sn, layout_ok sn -> forall kw vals,
  call_ok fuel (filter visible (sn_fields sn)) kw vals ->
  (length (members_given (filter visible (sn_fields sn)) kw) <= 1)%nat ->
  call_size sn kw vals <= 2 ^ 32 ->
  exists o, ctor fuel sn kw = Ok o /\
  forall n i dc off ex d s b, In (FSlot n i dc TText off ex d) (sn_fields sn) ->
    encode_maybe (Some s) = Ok (Some b) -> assoc kw n = Some (PBytes b) ->
    exists b', get_slot o (sn_utag sn) (FSlot n i dc TText off ex d) = Ok (GBytes b') /\ decode_maybe (Some b') = Ok (Some s).
Proof.
  intros fuel Hf sn L kw vals C M Z. destruct (built_ptrs fuel Hf sn L kw vals C M Z) as (o & E & P).
  exists o. split; [exact E|]. intros n i dc off ex d s b I En A. destruct (P _ I) as (Q & _).
  exists b. split; [exact (Q b A)|]. exact (C57_encode_decode _ _ En).
Qed.
Print Assumptions C57_field.
Example C57_ex : encode_maybe (Some [104; 233; 8364; 128512]) = Ok (Some (map Zb [104; 195; 169; 226; 130; 172; 240; 159; 152; 128])) /\
  decode_maybe (Some (map Zb [104; 195; 169; 226; 130; 172; 240; 159; 152; 128])) = Ok (Some [104; 233; 8364; 128512]) /\
  decode_maybe (Some (map Zb [192; 128])) = Err ValueError /\ encode_maybe (Some [55296]) = Err ValueError.
Proof. vm_compute. repeat split. Qed.
