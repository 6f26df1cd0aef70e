(** Property theorems C38-C42, C47, C48: hashes, keys, enums, options, names,
    the decode command, the file adapter. *)
From Verif Require Import Base Spec BaseFacts Ptr Segment Struct List Query StructFacts Message Stream MsgFinal Hash HashFacts Key KeyFacts
  Case CaseFacts Enum EnumFacts Options OptionsFacts Decode DecodeFacts Samples.

(** C38. [py_hash_int] and [py_tuple_hash] (Hash.v) say what CPython's hash()
    of an int and of a tuple are. [Ok] means that no signed C operation
    overflowed. *)
Theorem C38_inthash : forall v, - 2 ^ 63 <= v < 2 ^ 63 -> inthash v = Ok (py_hash_int v).
Proof. exact inthash_spec. Qed.
Print Assumptions C38_inthash.
Theorem C38_longhash : forall v, 0 <= v < 2 ^ 64 -> longhash v = py_hash_int v.
Proof. exact longhash_spec. Qed.
Print Assumptions C38_longhash.
Theorem C38_tuplehash : forall hs,
  Forall (fun h => - 2 ^ 63 <= h < 2 ^ 63 /\ h <> -1) hs -> tuplehash hs = py_tuple_hash hs.
Proof. exact tuplehash_spec. Qed.
Print Assumptions C38_tuplehash.
Example C38_ex : inthash (-1) = Ok (-2) /\ inthash (2 ^ 61 - 1) = Ok 0 /\ inthash (- 2 ^ 63) = Ok (-4) /\
  longhash (2 ^ 64 - 1) = 7 /\ tuplehash [py_hash_int 1; py_hash_int 2] = -3550055125485641917.
Proof. vm_compute. auto. Qed.

(** The hash of a stretch of bytes is the hash of the Python slice, as long as
    the stretch is inside of the buffer or longer than the whole buffer ... *)
Theorem C38_strhash : forall H a start size,
  H [] = 0 -> 0 <= start -> 0 <= size ->
  (start < blen a -> size <= blen a -> start + size <= blen a) ->
  strhash H a start size = Ok (H (py_slice a start (start + size))).
Proof. exact strhash_spec. Qed.
Print Assumptions C38_strhash.
(** ... so the hash of a text or data field is the hash of the bytes the
    getter returns, whatever the object. *)
Theorem C38_hash_data : forall H o d vs k dflt add r,
  obj_den o d vs -> 0 <= k -> H [] = 0 ->
  vbytes (v_ptr vs k) None add = Some r ->
  o_hash_data H o (8 * k) dflt add =
    match r with Ok None => Ok dflt | Ok (Some b) => Ok (H b) | Err e => Err e end.
Proof. exact o_hash_data_spec. Qed.
Print Assumptions C38_hash_data.
(** A stretch that starts inside and ends outside is read past the end of the
    buffer. *)
Theorem C38_strhash_overread_refuted : forall H a start size,
  0 <= start < blen a -> size <= blen a -> blen a < start + size ->
  strhash H a start size = Err MemFault.
Proof. exact strhash_overread. Qed.
Print Assumptions C38_strhash_overread_refuted.

(** C39. [norm] (Key.v) is what a value is up to ==: a struct with a key is
    the tuple of its key values, bools, ints and floats are rational numbers.
    [==] always answers (when there is no nan, no list of structs and no
    struct without a key), and it answers whether the two are the same up to
    that. *)
Theorem C39_equality : forall a b, keyed a -> keyed b ->
  exists r, (forall n, (kdepth a + kdepth b <= n)%nat -> py_eq n a b = Ok r) /\
            (r = true <-> norm a = norm b).
Proof.
  intros a b Ka Kb. destruct (py_eq_spec _ a b Ka Kb (le_n _)) as (r & _ & R).
  exists r. split; [|exact R]. intros n Hn. destruct (py_eq_spec n a b Ka Kb Hn) as (r' & E & R').
  rewrite E. f_equal. destruct r, r'; try reflexivity; [apply R', R; reflexivity|symmetry; apply R, R'; reflexivity].
Qed.
Print Assumptions C39_equality.
(** In particular a struct equals a tuple iff its key fields equal the items. *)
Theorem C39_struct_is_its_tuple : forall key items, keyed (KStruct key) -> keyed (KTuple items) ->
  exists r, (forall n, (kdepth (KStruct key) + kdepth (KTuple items) <= n)%nat ->
                py_eq n (KStruct key) (KTuple items) = Ok r /\ py_eq n (KTuple items) (KStruct key) = Ok r /\
                py_ne n (KStruct key) (KTuple items) = Ok (negb r)) /\
            (r = true <-> map norm key = map norm items).
Proof.
  intros key items Ka Kb. destruct (C39_equality _ _ Ka Kb) as (r & E & R).
  destruct (C39_equality _ _ Kb Ka) as (r' & E' & R'). cbn [norm] in R, R'.
  assert (r' = r).
  { destruct r, r'; try reflexivity; [apply R'; symmetry; apply R; reflexivity|symmetry; apply R; symmetry; apply R'; reflexivity]. }
  subst r'. exists r. split.
  - intros n Hn. rewrite E, E' by lia. unfold py_ne. rewrite E by lia. auto.
  - rewrite R. split; congruence.
Qed.
Print Assumptions C39_struct_is_its_tuple.
(** Equal objects have equal hashes, whatever the interpreter's hashes of
    None, of strings and of lists are; lists in keys are left out. *)
Theorem C39_equal_hash : forall hNone hBytes hText hList n a b, keyed a -> keyed b -> no_lists a -> no_lists b ->
  py_eq n a b = Ok true ->
  exists h, py_hash hNone hBytes hText hList a = Ok h /\ py_hash hNone hBytes hText hList b = Ok h.
Proof.
  intros hN hB hT hL n a b Ka Kb Na Nb E. apply hash_eq; try assumption.
  destruct (py_eq_spec (n + (kdepth a + kdepth b)) a b Ka Kb) as (r & E2 & R); [lia|].
  apply R. assert (M : py_eq (n + (kdepth a + kdepth b)) a b = Ok true) by (apply py_eq_mono with (n := n); [lia|exact E]).
  congruence.
Qed.
Print Assumptions C39_equal_hash.
(** The __hash__ emitted for Cython is the hash of the tuple too, or raises
    what hash() raises. [kf_ok] restricts each integer to the range of its
    wire type and excludes null text fields read as unicode. *)
Theorem C39_fast_hash : forall hNone hBytes hText hList,
  good_hash hNone -> (forall b, good_hash (hBytes b)) -> (forall u, good_hash (hText u)) -> (forall a h, hList a = Ok h -> good_hash h) ->
  forall l, Forall kf_ok l -> fast_hash hNone hBytes hText hList l = py_hash hNone hBytes hText hList (KStruct (map snd l)).
Proof. exact fast_hash_spec. Qed.
Print Assumptions C39_fast_hash.
Example C39_ex :
  py_eq 9 (KStruct [KInt 1; KStruct [KBytes [x61]]]) (KTuple [KBool true; KTuple [KBytes [x61]]]) = Ok true /\
  py_eq 9 (KStruct [KFloat (FNum 3 (-1)); KFloat (FNum 5 1)]) (KTuple [KFloat (FNum 12 (-3)); KInt 10]) = Ok true /\
  py_eq 9 (KStruct [KInt 1]) (KTuple [KInt 1; KNone]) = Ok false /\
  Forall kf_ok [(KFInt, KInt (-1)); (KFUint64, KInt (2 ^ 64 - 1)); (KFTextUnicode, KText []); (KFOther, KBool true)] /\
  good_hash 0 /\ kdepth (KStruct [KInt 1; KStruct [KBytes [x61]]]) = 5%nat.
Proof.
  split; [vm_compute; reflexivity|]. split; [vm_compute; reflexivity|]. split; [vm_compute; reflexivity|]. split.
  - repeat constructor; cbn; intros; lia.
  - split; [unfold good_hash; lia|reflexivity].
Qed.
(** hash(1.5) and hash(1e300) as CPython 3 computes them *)
Example C39_float_hash : py_hash_float (FNum 3 (-1)) = 1152921504606846977 /\ py_hash_float (FNum (-1) 0) = -2 /\
  py_hash_float (FNum 6724873095247260 944) = 1224995262755759164.
Proof. vm_compute. auto. Qed.
(** An object with nan in its key is equal to nothing, not even itself. *)
Definition nan_in (x : kv) : Prop := exists l, (x = KTuple l \/ x = KStruct l) /\ In (KFloat FNan) l.
Theorem C39_nan : forall n a b, nan_in a \/ nan_in b -> py_eq n a b <> Ok true.
Proof.
  induction n as [|n IH]; intros a b N; [discriminate|].
  assert (Sn : forall m x, py_eq m (KFloat FNan) x <> Ok true /\ py_eq m x (KFloat FNan) <> Ok true).
  { intros [|m] x; [split; discriminate|]. destruct x as [|?|?|?|?|?|?|?| |? [?|] ? ?]; split; cbn [py_eq scalar_eq float_eq list_equals]; try discriminate.
    all: repeat (match goal with f : pyfloat |- _ => destruct f end); discriminate. }
  assert (It : forall x y, In (KFloat FNan) x \/ In (KFloat FNan) y -> eq_items n x y <> Ok true).
  { induction x as [|u x IHx]; intros [|w y] I; cbn [eq_items]; try discriminate; [destruct I as [[]|[]]|].
    destruct (py_eq n u w) as [[|]|] eqn:E; cbn [bind]; try discriminate. apply IHx.
    destruct I as [[-> | I] | [-> | I]]; auto; exfalso; now apply Sn in E. }
  destruct a as [|?|?|?|?|?|l|key| |? t ? ?].
  all: try (match goal with |- py_eq _ (KList _ _ _ _) _ <> _ => destruct N as [(? & [N | N] & _)|N]; [discriminate N..|];
     cbn [py_eq list_equals]; destruct t; [|discriminate]; destruct N as (? & [-> | ->] & _); discriminate end).
  all: destruct b as [|?|?|?|?|?|l0|key0| |? t0 ? ?].
  all: try (exfalso; destruct N as [(? & [N | N] & _)|(? & [N | N] & _)]; discriminate N).
  all: try (cbn [py_eq list_equals scalar_eq]; repeat (match goal with o : option Z |- _ => destruct o end); discriminate).
  - rewrite py_eq_tuple. apply It. destruct N as [(l1 & [N | N] & I)|(l1 & [N | N] & I)]; try discriminate N; [left|right];
      apply (f_equal (fun k => match k with KTuple l => l | _ => [] end)) in N; subst; exact I.
  - cbn [py_eq]. apply IH. destruct N as [(l1 & [N | N] & I)|(l1 & [N | N] & I)]; try discriminate N.
    + left. exists l1. auto.
    + right. exists l1. apply (f_equal (fun k => match k with KStruct l => l | _ => [] end)) in N. subst. auto.
  - cbn [py_eq]. apply IH. destruct N as [(l1 & [N | N] & I)|(l1 & [N | N] & I)]; try discriminate N.
    + right. exists l1. apply (f_equal (fun k => match k with KStruct l => l | _ => [] end)) in N. subst. auto.
    + left. exists l1. auto.
  - cbn [py_eq]. apply IH. destruct N as [(l1 & [N | N] & I)|(l1 & [N | N] & I)]; try discriminate N.
    + right. exists l1. apply (f_equal (fun k => match k with KStruct l => l | _ => [] end)) in N. subst. auto.
    + left. exists l1. auto.
  - cbn [py_eq]. destruct n; discriminate.
Qed.
Print Assumptions C39_nan.
(** A list in the key. Without Cython the hash is made from the address of
    the List object, and each access makes a new one: the same object, asked
    twice, can have two hashes although it is equal to itself. With Cython
    such an object has no hash. *)
Theorem C39_list_hash_refuted : forall t c s a a', a <> a' ->
  py_eq 9 (KStruct [KList a (Some t) c s]) (KStruct [KList a' (Some t) c s]) = Ok true /\
  (exists hList, (forall x y, hList x = hList y -> x = y) /\ (forall x, exists h, hList x = Ok h) /\ forall hNone hBytes hText,
    py_hash hNone hBytes hText hList (KStruct [KList 4 (Some t) c s]) <> py_hash hNone hBytes hText hList (KStruct [KList 5 (Some t) c s])) /\
  (forall hList, (forall x, hList x = Err TypeError) -> forall hNone hBytes hText,
    py_hash hNone hBytes hText hList (KStruct [KList a (Some t) c s]) = Err TypeError).
Proof.
  intros t c s a a' Na. split; [|split].
  - cbn [py_eq list_equals bind]. rewrite !Z.eqb_refl. replace (beq s s) with true by (symmetry; now apply beq_spec). reflexivity.
  - exists (fun x => Ok x). split; [intros x y; apply ok_inj|]. split; [eauto|]. intros hN hB hT. vm_compute. discriminate.
  - intros hL H hN hB hT. cbn [py_hash]. rewrite H. reflexivity.
Qed.
Print Assumptions C39_list_hash_refuted.
(** Null unicode texts: the key holds None, the Cython hash takes the empty
    string, so an object and the tuple it equals hash differently. *)
Theorem C39_null_unicode_hash_refuted : exists hNone hBytes hText,
  good_hash hNone /\ (forall b, good_hash (hBytes b)) /\ (forall u, good_hash (hText u)) /\
  py_eq 9 (KStruct [KNone]) (KTuple [KNone]) = Ok true /\
  forall hList, fast_hash hNone hBytes hText hList [(KFTextUnicode, KNone)] <> py_hash hNone hBytes hText hList (KTuple [KNone]).
Proof.
  exists 4238894208, (fun _ => 0), (fun _ => 0). unfold good_hash. repeat split; try lia; vm_compute; discriminate.
Qed.
Print Assumptions C39_null_unicode_hash_refuted.

(** C40 *)
Theorem C40_declared : forall members v, 0 <= v < blen members ->
  exists s, nth_error members (Z.to_nat v) = Some s /\ enum_name members v = EName s.
Proof. exact enum_name_declared. Qed.
Print Assumptions C40_declared.
Theorem C40_unknown : forall members v, blen members <= v \/ v < - blen members ->
  enum_name members v = EUnknown v.
Proof. intros ms v [H|H]; [apply enum_name_unknown|apply enum_name_very_negative]; exact H. Qed.
Print Assumptions C40_unknown.
Theorem C40_attribute : forall members k s, NoDup members -> nth_error members k = Some s ->
  enum_attr members s = Some (AttrMember (Z.of_nat k)) /\
  enum_name members (Z.of_nat k) = EName s.
Proof.
  intros ms k s N E. split; [exact (enum_attr_member ms k s N E)|].
  assert (k < length ms)%nat by (apply nth_error_Some; congruence).
  destruct (enum_name_declared ms (Z.of_nat k)) as (s' & E' & ->); [unfold blen; lia|].
  rewrite Nat2Z.id in E'. congruence.
Qed.
Print Assumptions C40_attribute.
Theorem C40_str : forall members v, ~ In s_name members -> enum_str members v = Ok (enum_name members v).
Proof. exact enum_str_ok. Qed.
Print Assumptions C40_str.
(** The getter of an enum field: the wire value, xor the default of the schema;
    the default itself for fields that the sender does not know *)
Theorem C40_getter : forall o d vs off dflt, obj_den o d vs -> 0 <= off -> off mod 2 = 0 ->
  get_enum o off dflt = Ok (Z.lxor (v_prim d off Fh) dflt) /\
  (blen d <= off -> get_enum o off dflt = Ok dflt).
Proof.
  intros o d vs off dflt O Ho Ha. unfold get_enum.
  rewrite (StructFacts.o_read_primitive_spec o d vs off Fh O Ho Ha). cbn [bind].
  assert (X : (if negb (dflt =? 0) then Z.lxor (v_prim d off Fh) dflt else v_prim d off Fh) = Z.lxor (v_prim d off Fh) dflt).
  { destruct (Z.eqb_spec dflt 0) as [->|N]; cbn [negb]; [rewrite Z.lxor_0_r|]; reflexivity. }
  rewrite X. split; [reflexivity|]. intros B. unfold v_prim. replace (blen d <=? off) with true by (symmetry; lia).
  rewrite Z.lxor_0_l. reflexivity.
Qed.
Print Assumptions C40_getter.
Definition rgb : list str := [[114; 101; 100]; [103; 114; 101; 101; 110]; [98; 108; 117; 101]].
Example C40_ex : NoDup rgb /\ ~ In s_name rgb /\ enum_name rgb 1 = EName [103; 114; 101; 101; 110] /\
  enum_name rgb 3 = EUnknown 3.
Proof.
  split; [repeat constructor; cbn; intuition discriminate|]. split; [cbn; intuition discriminate|]. vm_compute. auto.
Qed.
(** Wire values are read as signed 16-bit integers and index the tuple of the
    members: 65535 is reported as the last declared member. *)
Theorem C40_wire_negative_refuted :
  exists o, get_enum o 0 0 = Ok (-1) /\ fdec FH (sub (sbuf (o_seg o)) (o_off o) 2) = 65535 /\
            enum_name rgb (-1) = EName [98; 108; 117; 101].
Proof.
  exists {| o_seg := {| sbuf := [xff; xff; x00; x00; x00; x00; x00; x00]; soffs := None |}; o_off := 0; o_ptrs := 8; o_ds := 1; o_ps := 0 |}.
  vm_compute. auto.
Qed.
Print Assumptions C40_wire_negative_refuted.
(** A member called "name" hides the property: str() fails for every value. *)
Theorem C40_member_called_name_refuted : forall members v, In s_name members -> enum_str members v = Err TypeError.
Proof. exact enum_str_shadowed. Qed.
Print Assumptions C40_member_called_name_refuted.

(** C41. [path t id anns]: the annotations on the way from the root to the
    node [id]; [nearest] takes for one option the last of them that sets it. *)
Theorem C41_nearest_wins : forall t d id o,
  In (id, o) (compute_options t d) <->
  exists anns, path t id anns /\
    o = mkopts (nearest version_check bool_notset anns (version_check d))
               (nearest convert_case bool_notset anns (convert_case d))
               (nearest text_type text_notset anns (text_type d))
               (nearest include_reflection_data bool_notset anns (include_reflection_data d)).
Proof. exact compute_options_spec. Qed.
Print Assumptions C41_nearest_wins.
Theorem C41_combine : forall a b c,
  combine a (combine b c) = combine (combine a b) c /\ combine a a = a /\
  combine a (mkopts bool_notset bool_notset text_notset bool_notset) = a.
Proof. intros. split; [apply combine_assoc|]. split; [apply combine_idem|apply combine_unset]. Qed.
Print Assumptions C41_combine.
Example C41_ex :
  let d := mkopts 0 1 1 1 in
  let t := ONode 1 (Some (mkopts 1 2 2 2)) [ONode 2 (Some (mkopts 2 0 0 2)) [ONode 3 None [] []] [ONode 4 (Some (mkopts 0 2 0 2)) [] []]] [] in
  compute_options t d = [(1, mkopts 1 1 2 1); (2, mkopts 1 0 2 1); (3, mkopts 1 0 2 1); (4, mkopts 0 0 2 1)].
Proof. vm_compute. reflexivity. Qed.

(** C42. *)
Theorem C42_only_inserts : forall s, inserted (lower s) (from_camel_case s).
Proof. exact camel_inserted. Qed.
Print Assumptions C42_only_inserts.
Theorem C42_same_letters : forall s, squeeze (from_camel_case s) = squeeze (lower s).
Proof. intros s. symmetry. apply inserted_squeeze, camel_inserted. Qed.
Print Assumptions C42_same_letters.
Theorem C42_idempotent : forall s, from_camel_case (from_camel_case s) = from_camel_case s.
Proof. exact camel_idem. Qed.
Print Assumptions C42_idempotent.
Theorem C42_distinct : forall a b, squeeze (lower a) <> squeeze (lower b) -> from_camel_case a <> from_camel_case b.
Proof. exact camel_distinct. Qed.
Print Assumptions C42_distinct.
(** and on ordinary camelCase names it is the expected snake_case *)
Theorem C42_camel_words : forall s, camel_simple s -> from_camel_case s = camel_words s.
Proof. exact camel_simple_spec. Qed.
Print Assumptions C42_camel_words.
(** Exactly: an underscore goes before a capital letter which follows a small
    letter or a digit, or which comes before a small letter and is not at the
    beginning (or after a newline). *)
Theorem C42_exact : forall s, from_camel_case s = snake None s.
Proof. exact camel_exact. Qed.
Print Assumptions C42_exact.
(** fooHTTPServer2Bar -> foo_http_server2_bar *)
Example C42_exact_ex : snake None [102; 111; 111; 72; 84; 84; 80; 83; 101; 114; 118; 101; 114; 50; 66; 97; 114] =
  [102; 111; 111; 95; 104; 116; 116; 112; 95; 115; 101; 114; 118; 101; 114; 50; 95; 98; 97; 114].
Proof. reflexivity. Qed.
(** The Python names of fields: never a keyword; keywords get an underscore. *)
Theorem C42_mangle : forall kwlist,
  (forall a, In a kwlist -> ~ In (a ++ [underscore]) kwlist) ->
  forall cc s, ~ In (py_field_name kwlist cc s) kwlist /\
    let n := if cc then from_camel_case s else s in
    (In n kwlist -> py_field_name kwlist cc s = n ++ [underscore]) /\
    (~ In n kwlist -> py_field_name kwlist cc s = n).
Proof. exact py_field_name_spec. Qed.
Print Assumptions C42_mangle.
Definition s_fooBar : str := [102; 111; 111; 66; 97; 114].
Definition s_foo_bar : str := [102; 111; 111; 95; 98; 97; 114].
Example C42_ex : camel_simple s_fooBar /\ from_camel_case s_fooBar = s_foo_bar /\
  py_field_name [s_foo_bar] true s_fooBar = s_foo_bar ++ [underscore].
Proof. split; [cbn; intuition discriminate|]. vm_compute. auto. Qed.
(** Two different fields of a schema can end up with one Python name. *)
Theorem C42_injective_refuted : exists a b, a <> b /\ from_camel_case a = from_camel_case b.
Proof. exists s_fooBar, s_foo_bar. split; [discriminate|reflexivity]. Qed.
Print Assumptions C42_injective_refuted.

(** C47: a file of complete messages, each with a root, is printed message by
    message; then the EOFError of the last load is not caught. *)
Theorem C47_decode_refuted : forall T (shortrepr : obj -> res T) msgs os lines fuel chunks,
  Forall (fun m => frameable (snd m) /\ pad_ok (fst m) (snd m)) msgs ->
  Forall2 (fun m o => loads (frame_with (fst m) (snd m)) = Ok (Some o)) msgs os ->
  Forall2 (fun o l => shortrepr o = Ok l) os lines ->
  Forall (fun ch => ch <> []) chunks ->
  concat chunks = concat (map (fun m => frame_with (fst m) (snd m)) msgs) ->
  (length msgs < fuel)%nat ->
  decode _ bs_read T shortrepr fuel (bs_init chunks) = (lines, Some EOFError).
Proof. exact decode_file. Qed.
Print Assumptions C47_decode_refuted.
(** A file cut in the middle of a message exits normally, silently. *)
Theorem C47_decode_cut : forall T (shortrepr : obj -> res T) msgs os lines m pre more fuel chunks,
  Forall (fun m => frameable (snd m) /\ pad_ok (fst m) (snd m)) msgs ->
  Forall2 (fun m o => loads (frame_with (fst m) (snd m)) = Ok (Some o)) msgs os ->
  Forall2 (fun o l => shortrepr o = Ok l) os lines ->
  frameable (snd m) -> pad_ok (fst m) (snd m) -> concat (snd m) <> [] ->
  pre ++ more = frame_with (fst m) (snd m) -> pre <> [] -> more <> [] ->
  Forall (fun ch => ch <> []) chunks ->
  concat chunks = concat (map (fun m => frame_with (fst m) (snd m)) msgs) ++ pre ->
  (length msgs < fuel)%nat ->
  decode _ bs_read T shortrepr fuel (bs_init chunks) = (lines, None).
Proof. exact decode_file_cut. Qed.
Print Assumptions C47_decode_cut.
(** In general, from any reader: what decode prints is what load_all yields;
    a null root is an AttributeError. *)
Theorem C47_decode_is_load_all : forall St read T (shortrepr : obj -> res T) fuel st os lines e,
  load_all St read fuel st = (map Some os, e) ->
  Forall2 (fun o l => shortrepr o = Ok l) os lines ->
  decode St read T shortrepr fuel st =
    (lines, match e with None => Some EOFError | Some ValueError => None | Some e => Some e end).
Proof. exact decode_load_all. Qed.
Print Assumptions C47_decode_is_load_all.
Theorem C47_null_root : forall St read T (shortrepr : obj -> res T) fuel st os xs lines e,
  load_all St read fuel st = (map Some os ++ None :: xs, e) ->
  Forall2 (fun o l => shortrepr o = Ok l) os lines ->
  decode St read T shortrepr fuel st = (lines, Some AttributeError).
Proof. exact decode_none. Qed.
Print Assumptions C47_null_root.
Example C47_ex :
  let m := frame_with [] [sample1] in
  decode _ bs_read Z (fun o => o_read_primitive o 0 Fq) 9 (bs_init [firstn 7 m; skipn 7 m ++ m]) = ([42; 42], Some EOFError) /\
  decode _ bs_read Z (fun o => o_read_primitive o 0 Fq) 9 (bs_init [m; firstn 30 m]) = ([42], None).
Proof. vm_compute. auto. Qed.

(** C48: read, hence load, is the same through the adapter ... *)
Theorem C48_adapter_read : forall St (f_read : Z -> St -> bytes * St) n st,
  adapter_read St f_read n st = f_read n st /\ load St (adapter_read St f_read) st = load St f_read st.
Proof. intros. split; reflexivity. Qed.
Print Assumptions C48_adapter_read.
(** ... but readline never returns a line, whatever the file. *)
Theorem C48_adapter_readline_refuted : forall St (f_readline : St -> bytes * St) st,
  fst (adapter_readline St st) <> fst (file_readline St f_readline st) /\
  snd (adapter_readline St st) = st.
Proof. intros. unfold file_readline. destruct (f_readline st). split; [discriminate|reflexivity]. Qed.
Print Assumptions C48_adapter_readline_refuted.
