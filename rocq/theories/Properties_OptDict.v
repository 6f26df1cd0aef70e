(** C68: the options given on the command line, in setup.py or to load_schema
    are the ones of the generated module; the version check. *)
From Coq Require Import Strings.String Strings.Ascii.
From Verif Require Import Base BaseFacts Spec Builder Struct Case CaseFacts Options Loader OptDict.
From Coq Require Import Lia Lists.List.
Local Notation length := Datatypes.length.
Local Open Scope list_scope.
Local Open Scope Z_scope.

(** ** Specification *)

(** an int16 *)
Definition int16 (v : Z) : Prop := - 2 ^ 15 <= v < 2 ^ 15.
Definition int16s (r : opts) : Prop :=
  int16 (version_check r) /\ int16 (convert_case r) /\ int16 (text_type r) /\
  int16 (include_reflection_data r).

(** what a user reads from an Options object *)
Definition reads_as (o : bytes) (r : opts) : Prop :=
  get_version_check o = Ok (version_check r) /\ get_convert_case o = Ok (convert_case r) /\
  get_text_type o = Ok (text_type r) /\
  get_include_reflection_data o = Ok (include_reflection_data r).

(** the enumerants of BoolOption and TextType *)
Definition enumerant (b : bool) : Z := if b then 1 else 0.

(** the keys and the values that the documentation allows *)
Definition bool_keys : list str := [lit "version_check"; lit "convert_case"; lit "include_reflection_data"].
Definition legal (e : str * pval) : Prop :=
  (In (fst e) bool_keys /\ exists b, snd e = PBool b) \/
  (fst e = lit "text_type" /\ (snd e = PStr (lit "bytes") \/ snd e = PStr (lit "unicode"))).

(** the value [v] of an option is the one the dictionary gives for [key], or
    [notset] *)
Definition given_bool (d : list (str * pval)) (key : str) (v : Z) : Prop :=
  (forall b, In (key, PBool b) d -> v = enumerant b) /\ (~ In key (map fst d) -> v = 2).
Definition given_text (d : list (str * pval)) (v : Z) : Prop :=
  (In (lit "text_type", PStr (lit "bytes")) d -> v = 1) /\
  (In (lit "text_type", PStr (lit "unicode")) d -> v = 2) /\
  (~ In (lit "text_type") (map fst d) -> v = 0).

(** ** Facts *)

Lemma lxor2_range v : int16 v -> int16 (Z.lxor v 2).
Proof.
  unfold int16. intros H.
  assert (E : Z.lxor v 2 / 2 ^ 15 = v / 2 ^ 15).
  { rewrite <- !Z.shiftr_div_pow2 by lia. rewrite Z.shiftr_lxor. change (Z.shiftr 2 15) with 0.
    apply Z.lxor_0_r. }
  pose proof (Z.div_mod (Z.lxor v 2) (2 ^ 15) ltac:(lia)).
  pose proof (Z.mod_pos_bound (Z.lxor v 2) (2 ^ 15) ltac:(lia)).
  pose proof (Z.div_mod v (2 ^ 15) ltac:(lia)).
  pose proof (Z.mod_pos_bound v (2 ^ 15) ltac:(lia)). lia.
Qed.

Lemma int16_fmt v : int16 v <-> in_fmt Fh v.
Proof. unfold int16, in_fmt, fmin, fmax. cbn [fsigned fsize]. lia. Qed.

Lemma blen_Fh v : exists a b, fenc Fh v = [a; b].
Proof. unfold fenc. change (Z.to_nat (fsize Fh)) with 2%nat. cbn [le_enc]. eauto. Qed.

Lemma write_at buf i v : int16 v -> 0 <= i -> i + 2 <= blen buf ->
  b_write Fh buf i v = Ok (upd buf i (fenc Fh v)).
Proof.
  intros H H1 H2. unfold b_write, pack_into.
  replace (in_fmtb Fh v) with true by (symmetry; apply in_fmtb_iff; now apply int16_fmt). cbn [negb].
  replace (i <? 0) with false by (symmetry; apply Z.ltb_ge; lia).
  replace (i <? 0) with false by (symmetry; apply Z.ltb_ge; lia).
  cbn [fsize]. replace (blen buf <? i + 2) with false by (symmetry; apply Z.ltb_ge; lia). reflexivity.
Qed.

Lemma opt_new_bytes vc cc tx ird : int16 vc -> int16 cc -> int16 tx -> int16 ird ->
  opt_new vc cc tx ird =
  Ok (fenc Fh (Z.lxor vc 2) ++ fenc Fh (Z.lxor cc 2) ++ fenc Fh tx ++ fenc Fh (Z.lxor ird 2)).
Proof.
  intros H1 H2 H3 H4. unfold opt_new, allocate. change (blen []) with 0. rewrite Z.lxor_0_r.
  cbn [Z.add]. rewrite write_at by (auto using lxor2_range; try lia; vm_compute; discriminate). cbn [bind].
  destruct (blen_Fh (Z.lxor vc 2)) as (a & b & ->).
  change (upd ([] ++ zeros 8) 0 [a; b]) with ([a; b; x00; x00; x00; x00; x00; x00]).
  rewrite write_at by (auto using lxor2_range; try lia; vm_compute; discriminate). cbn [bind].
  destruct (blen_Fh (Z.lxor cc 2)) as (c & d & ->).
  change (upd _ 2 [c; d]) with ([a; b; c; d; x00; x00; x00; x00]).
  rewrite write_at by (auto using lxor2_range; try lia; vm_compute; discriminate). cbn [bind].
  destruct (blen_Fh tx) as (e & f & ->).
  change (upd _ 4 [e; f]) with ([a; b; c; d; e; f; x00; x00]).
  rewrite write_at by (auto using lxor2_range; try lia; vm_compute; discriminate).
  destruct (blen_Fh (Z.lxor ird 2)) as (g & h & ->). reflexivity.
Qed.

Lemma lxor22 v : Z.lxor (Z.lxor v 2) 2 = v.
Proof. rewrite Z.lxor_assoc. apply Z.lxor_0_r. Qed.

Lemma opt_new_reads vc cc tx ird : int16 vc -> int16 cc -> int16 tx -> int16 ird ->
  exists o, opt_new vc cc tx ird = Ok o /\ blen o = 8 /\ reads_as o (mkopts vc cc tx ird).
Proof.
  intros H1 H2 H3 H4.
  exists (fenc Fh (Z.lxor vc 2) ++ fenc Fh (Z.lxor cc 2) ++ fenc Fh tx ++ fenc Fh (Z.lxor ird 2)).
  split; [now apply opt_new_bytes|].
  pose proof (fdec_fenc Fh _ (proj1 (int16_fmt _) (lxor2_range _ H1))) as E1.
  pose proof (fdec_fenc Fh _ (proj1 (int16_fmt _) (lxor2_range _ H2))) as E2.
  pose proof (fdec_fenc Fh _ (proj1 (int16_fmt _) H3)) as E3.
  pose proof (fdec_fenc Fh _ (proj1 (int16_fmt _) (lxor2_range _ H4))) as E4.
  destruct (blen_Fh (Z.lxor vc 2)) as (a & b & Ea). destruct (blen_Fh (Z.lxor cc 2)) as (c & d & Ec).
  destruct (blen_Fh tx) as (e & f & Ee). destruct (blen_Fh (Z.lxor ird 2)) as (g & h & Eg).
  rewrite Ea in *. rewrite Ec in *. rewrite Ee in *. rewrite Eg in *. cbn [app].
  split; [reflexivity|].
  unfold reads_as, get_version_check, get_convert_case, get_text_type, get_include_reflection_data, opt_read.
  cbn [version_check convert_case text_type include_reflection_data].
  split; [|split; [|split]].
  - change (unpack_from Fh [a; b; c; d; e; f; g; h] 0) with (Ok (fdec Fh [a; b])). cbn [bind].
    rewrite E1. cbn. f_equal. apply lxor22.
  - change (unpack_from Fh [a; b; c; d; e; f; g; h] 2) with (Ok (fdec Fh [c; d])). cbn [bind].
    rewrite E2. cbn. f_equal. apply lxor22.
  - change (unpack_from Fh [a; b; c; d; e; f; g; h] 4) with (Ok (fdec Fh [e; f])). cbn [bind].
    rewrite E3. reflexivity.
  - change (unpack_from Fh [a; b; c; d; e; f; g; h] 6) with (Ok (fdec Fh [g; h])). cbn [bind].
    rewrite E4. cbn. f_equal. apply lxor22.
Qed.

Lemma combine_reads a b r s : reads_as a r -> reads_as b s -> int16s r -> int16s s ->
  exists o, opt_combine a b = Ok o /\ reads_as o (Options.combine r s) /\ int16s (Options.combine r s).
Proof.
  intros (A1 & A2 & A3 & A4) (B1 & B2 & B3 & B4) (R1 & R2 & R3 & R4) (S1 & S2 & S3 & S4).
  assert (I : int16s (Options.combine r s)).
  { unfold int16s, Options.combine. cbn [version_check convert_case text_type include_reflection_data].
    repeat split; match goal with |- context [if ?c then _ else _] => destruct c end; 
      first [apply R1|apply R2|apply R3|apply R4|apply S1|apply S2|apply S3|apply S4]. }
  destruct I as (I1 & I2 & I3 & I4).
  destruct (opt_new_reads _ _ _ _ I1 I2 I3 I4) as (o & E & _ & V).
  exists o. split; [|split].
  - unfold opt_combine, combine_field. rewrite A1, A2, A3, A4, B1, B2, B3, B4. cbn [bind]. exact E.
  - exact V.
  - exact (conj I1 (conj I2 (conj I3 I4))).
Qed.

Lemma find_key kw key : match find (fun e : str * pval => str_eqb (fst e) key) kw with
  | Some (k, v) => k = key /\ In (key, v) kw
  | None => ~ In key (map fst kw)
  end.
Proof.
  induction kw as [|[k v] kw IH]; cbn [find map fst In]; auto.
  destruct (str_eqb k key) eqn:E.
  - apply str_eqb_spec in E. subst. auto.
  - destruct (find _ kw) as [[k' v']|].
    + destruct IH. auto.
    + intros [<- | H]; [|auto]. assert (str_eqb k k = true) by now apply str_eqb_spec. congruence.
Qed.

(** the keyword arguments made from a legal dictionary *)
Definition kw_of (e : str * pval) : str * pval :=
  match e with
  | (k, PStr s) => (k, PInt (if str_eqb s (lit "bytes") then 1 else 2))
  | e => e
  end.

Lemma dict_kwargs_legal d : Forall legal d -> dict_kwargs d = Ok (map kw_of d).
Proof.
  induction 1 as [|[k v] d H _ IH]; auto. cbn [dict_kwargs map].
  destruct H as [[K (b & B)] | [K T]]; cbn [fst snd] in *; subst.
  - assert (E : str_eqb k (lit "version_check") || str_eqb k (lit "convert_case")
         || str_eqb k (lit "include_reflection_data") = true).
    { destruct K as [<- | [<- | [<- | []]]]; reflexivity. }
    rewrite E, IH. reflexivity.
  - cbn [str_eqb]. destruct T as [-> | ->]; cbn; rewrite IH; reflexivity.
Qed.

Lemma map_fst_kw d : map fst (map kw_of d) = map fst d.
Proof. induction d as [|[k [b|n|s]] d IH]; cbn; f_equal; auto. Qed.

Lemma NoDup_key d (k : str) (v w : pval) : NoDup (map fst d) -> In (k, v) d -> In (k, w) d -> v = w.
Proof.
  induction d as [|[k' v'] d IH]; cbn [map fst In]; [tauto|].
  intros N. inversion N as [|? ? N1 N2]; subst.
  intros [A | A] [B | B]; try congruence; auto.
  - inversion A; subst. exfalso. apply N1. now apply (in_map fst) in B.
  - inversion B; subst. exfalso. apply N1. now apply (in_map fst) in A.
Qed.

Lemma kw_bool d key : NoDup (map fst d) -> Forall legal d -> In key bool_keys ->
  exists v, as_int (kwarg (map kw_of d) key 2) = Ok v /\ int16 v /\ given_bool d key v.
Proof.
  intros N L K. unfold kwarg. pose proof (find_key (map kw_of d) key) as F.
  destruct (find _ _) as [[k v]|].
  - destruct F as [-> F]. apply in_map_iff in F. destruct F as ([k0 v0] & E & I).
    pose proof (proj1 (Forall_forall _ _) L _ I) as [[K0 (b & B)] | [K0 T]]; cbn [fst snd] in *; subst.
    + cbn in E. inversion E; subst. exists (enumerant b). cbn [as_int]. split; [now destruct b|].
      split; [unfold int16; destruct b; cbn; lia|]. split.
      * intros b' Ib. assert (PBool b' = PBool b) by (eapply NoDup_key; eauto). congruence.
      * intros Nk. exfalso. apply Nk. now apply (in_map fst) in I.
    + exfalso. assert (key = lit "text_type") as -> by (destruct T as [-> | ->]; exact (eq_sym (f_equal fst E))).
      destruct K as [K | [K | [K | []]]]; discriminate K.
  - rewrite map_fst_kw in F. exists 2. split; [reflexivity|]. split; [unfold int16; lia|]. split; auto.
    intros b I. exfalso. apply F. now apply (in_map fst) in I.
Qed.

Lemma kw_text d : NoDup (map fst d) -> Forall legal d ->
  exists v, as_int (kwarg (map kw_of d) (lit "text_type") 0) = Ok v /\ int16 v /\ given_text d v.
Proof.
  intros N L. unfold kwarg. pose proof (find_key (map kw_of d) (lit "text_type")) as F.
  destruct (find _ _) as [[k v]|].
  - destruct F as [-> F]. apply in_map_iff in F. destruct F as ([k0 v0] & E & I).
    pose proof (proj1 (Forall_forall _ _) L _ I) as [[K0 (b & B)] | [K0 T]]; cbn [fst snd] in *; subst.
    + exfalso. cbn in E. inversion E; subst. destruct K0 as [K | [K | [K | []]]]; discriminate K.
    + destruct T as [-> | ->]; cbn in E; inversion E; subst; cbn [as_int]; eexists; split;
        try reflexivity; (split; [unfold int16; lia|]); split; try split; intros J; auto;
        try (exfalso; apply J; now apply (in_map fst) in I);
        exfalso; pose proof (NoDup_key _ _ _ _ N I J) as X; discriminate X.
  - rewrite map_fst_kw in F. exists 0. split; [reflexivity|]. split; [unfold int16; lia|].
    split; [|split]; auto; intros I; exfalso; apply F; now apply (in_map fst) in I.
Qed.

Lemma from_dict_legal d : NoDup (map fst d) -> Forall legal d ->
  exists o r, from_dict d = Ok o /\ reads_as o r /\ int16s r /\
    given_bool d (lit "version_check") (version_check r) /\
    given_bool d (lit "convert_case") (convert_case r) /\
    given_text d (text_type r) /\
    given_bool d (lit "include_reflection_data") (include_reflection_data r).
Proof.
  intros N L.
  destruct (kw_bool d (lit "version_check") N L) as (vc & A1 & A2 & A3); [left; reflexivity|].
  destruct (kw_bool d (lit "convert_case") N L) as (cc & B1 & B2 & B3); [right; left; reflexivity|].
  destruct (kw_bool d (lit "include_reflection_data") N L) as (rd & C1 & C2 & C3); [right; right; left; reflexivity|].
  destruct (kw_text d N L) as (tx & D1 & D2 & D3).
  destruct (opt_new_reads vc cc tx rd A2 B2 D2 C2) as (o & E & _ & V).
  exists o, (mkopts vc cc tx rd). split; [|split; [exact V|]].
  - unfold from_dict. rewrite dict_kwargs_legal by auto. cbn [bind]. unfold opt_call.
    rewrite A1, B1, C1, D1. cbn [bind]. exact E.
  - exact (conj (conj A2 (conj B2 (conj D2 C2))) (conj A3 (conj B3 (conj D3 C3)))).
Qed.

(** ** Options objects *)

(** Every option given to Options(...) reads back. *)
Theorem C68_options_object : forall vc cc tx ird,
  int16 vc -> int16 cc -> int16 tx -> int16 ird ->
  exists o, opt_new vc cc tx ird = Ok o /\ reads_as o (mkopts vc cc tx ird).
Proof.
  intros vc cc tx ird H1 H2 H3 H4. destruct (opt_new_reads vc cc tx ird H1 H2 H3 H4) as (o & E & _ & V). eauto.
Qed.
Print Assumptions C68_options_object.

(** Options.from_dict: each option is the one the dictionary says, the others
    are not set; the order of the dictionary does not matter. *)
Theorem C68_from_dict : forall d,
  NoDup (map fst d) -> Forall legal d ->
  exists o r, from_dict d = Ok o /\ reads_as o r /\
    given_bool d (lit "version_check") (version_check r) /\
    given_bool d (lit "convert_case") (convert_case r) /\
    given_text d (text_type r) /\
    given_bool d (lit "include_reflection_data") (include_reflection_data r).
Proof.
  intros d N L. destruct (from_dict_legal d N L) as (o & r & A & B & C & D). exists o, r. auto.
Qed.
Print Assumptions C68_from_dict.

(** An unknown key, or an unknown text type, is refused whatever else is in
    the dictionary. *)
Theorem C68_from_dict_refused : forall d k v,
  In (k, v) d ->
  (~ In k (lit "text_type" :: bool_keys)) \/
  (k = lit "text_type" /\ v <> PStr (lit "bytes") /\ v <> PStr (lit "unicode")) ->
  from_dict d = Err ValueError.
Proof.
  intros d k v I H. unfold from_dict. replace (dict_kwargs d) with (@Err (list (str * pval)) ValueError); auto.
  symmetry. induction d as [|[k' v'] d IH]; [destruct I|]. cbn [dict_kwargs].
  assert (G : forall w, (k', v') <> (k, v) -> (do kw <- dict_kwargs d; Ok ((k', w) :: kw)) = Err ValueError).
  { intros w Ne. destruct I as [I | I]; [congruence|]. now rewrite IH. }
  destruct (list_eq_dec Z.eq_dec k' k) as [-> | Nk].
  - destruct H as [H | (-> & V1 & V2)].
    + assert (X : forall q, In q (lit "text_type" :: bool_keys) -> str_eqb k q = false).
      { intros q Q. destruct (str_eqb k q) eqn:E; auto. apply str_eqb_spec in E. subst. contradiction. }
      rewrite !X; auto; unfold bool_keys; cbn [In]; auto.
    + change (str_eqb (lit "text_type") (lit "version_check") || _ || _) with false.
      change (str_eqb (lit "text_type") (lit "text_type")) with true. cbv iota.
      destruct v' as [b|n|s]; auto. cbn [text_parse].
      destruct (str_eqb s (lit "bytes")) eqn:E1; [|destruct (str_eqb s (lit "unicode")) eqn:E2; auto].
      * apply str_eqb_spec in E1. subst. cbn [bind]. apply G. congruence.
      * apply str_eqb_spec in E2. subst. cbn [bind]. apply G. congruence.
  - assert (Ne : (k', v') <> (k, v)) by congruence.
    destruct (_ || _ || _); [now apply G|].
    destruct (str_eqb k' (lit "text_type")); auto.
    unfold text_parse. destruct v' as [b|n|s]; auto.
    destruct (str_eqb s _); [now apply G|]. destruct (str_eqb s _); [now apply G|auto].
Qed.
Print Assumptions C68_from_dict_refused.

(** a setup.py dictionary: 'pyx' is not an option of Options *)
Theorem C68_setup : forall pre post v,
  ~ In (lit "pyx") (map fst (pre ++ post)) ->
  setup_options (pre ++ (lit "pyx", v) :: post) = (v, from_dict (pre ++ post)) /\
  setup_options (pre ++ post) = (PStr (lit "auto"), from_dict (pre ++ post)).
Proof.
  intros pre post v H.
  assert (F : forall l, ~ In (lit "pyx") (map fst l) ->
     filter (fun e : str * pval => negb (str_eqb (fst e) (lit "pyx"))) l = l /\
     find (fun e : str * pval => str_eqb (fst e) (lit "pyx")) l = None).
  { induction l as [|[k w] l IH]; auto. cbn [map fst In filter find]. intros N.
    destruct (str_eqb k (lit "pyx")) eqn:E; [apply str_eqb_spec in E; subst; tauto|]. cbn [negb].
    destruct IH as [-> ->]; auto. }
  rewrite map_app, in_app_iff in H.
  destruct (F pre ltac:(tauto)) as [A1 A2]. destruct (F post ltac:(tauto)) as [B1 B2].
  assert (FA : forall l m, find (fun e : str * pval => str_eqb (fst e) (lit "pyx")) l = None ->
    find (fun e : str * pval => str_eqb (fst e) (lit "pyx")) (l ++ m) =
    find (fun e : str * pval => str_eqb (fst e) (lit "pyx")) m).
  { induction l as [|x l IH]; auto. cbn [find app]. intros m. destruct (str_eqb (fst x) _); [discriminate|auto]. }
  unfold setup_options. rewrite !FA by auto. rewrite !filter_app, A1. cbn [filter find fst].
  change (str_eqb (lit "pyx") (lit "pyx")) with true. cbn [negb]. rewrite B1, B2. auto.
Qed.
Print Assumptions C68_setup.

(** ** The options of the generator *)

Lemma default_reads : exists dflt, generator_options None = Ok dflt /\ reads_as dflt (mkopts 1 1 1 1).
Proof. eexists. split; [vm_compute; reflexivity|]. repeat split; vm_compute; reflexivity. Qed.

Lemma int16s_default : int16s (mkopts 1 1 1 1).
Proof. unfold int16s, int16. cbn. lia. Qed.

(** An option which was given is the option of the generator; one which was
    not is on (text: bytes). In particular none is left unset. *)
Theorem C68_effective : forall o r,
  reads_as o r -> int16s r ->
  exists g e, generator_options (Some o) = Ok g /\ reads_as g e /\
    (forall get, In get [version_check; convert_case; include_reflection_data] ->
       (get r <> 2 -> get e = get r) /\ (get r = 2 -> get e = 1)) /\
    (text_type r <> 0 -> text_type e = text_type r) /\ (text_type r = 0 -> text_type e = 1).
Proof.
  intros o r V I. destruct default_reads as (dflt & D & Vd).
  destruct (combine_reads dflt o _ r Vd V int16s_default I) as (g & E & Vg & _).
  exists g, (Options.combine (mkopts 1 1 1 1) r). split; [|split; [auto|]].
  - unfold generator_options in *. destruct (opt_call _); [|discriminate]. cbn [bind] in *. congruence.
  - unfold Options.combine, bool_notset, text_notset.
    split; [|split; cbn; intros; [destruct (Z.eqb_spec (text_type r) 0)|destruct (Z.eqb_spec (text_type r) 0)]; cbn; congruence].
    intros get G. cbn [In] in G.
    destruct G as [<- | [<- | [<- | []]]]; 
      cbn [version_check convert_case include_reflection_data];
      match goal with |- context [negb (?x =? 2)] => destruct (Z.eqb_spec x 2) end; cbn [negb]; split; congruence.
Qed.
Print Assumptions C68_effective.

(** ** The command line *)

(** capnpy compile / decode: the flags are the options of the generator and of
    the header of the module (if the schema has no options of its own). *)
Theorem C68_flags : forall f lib,
  fl_text_type f = lit "bytes" \/ fl_text_type f = lit "unicode" ->
  exists o g, parse_argv f = Done (if no_pyx f then PFalse else PAuto, o) /\
    generator_options (Some o) = Ok g /\
    reads_as g (mkopts (enumerant (negb (no_version_check f))) (enumerant (negb (no_convert_case f)))
                       (if str_eqb (fl_text_type f) (lit "bytes") then 1 else 2)
                       (enumerant (negb (no_reflection f)))) /\
    header lib (Some o) None = Ok (mkgmod lib (negb (no_version_check f)) (negb (no_reflection f))).
Proof.
  intros [cc tx px vc rd] lib [H | H]; cbn [fl_text_type] in H; subst tx;
    destruct cc, vc, rd, px; do 2 eexists; (split; [vm_compute; reflexivity|]);
    (split; [vm_compute; reflexivity|]); (split; [repeat split; vm_compute; reflexivity|vm_compute; reflexivity]).
Qed.
Print Assumptions C68_flags.

Theorem C68_flags_refused : forall f,
  fl_text_type f <> lit "bytes" -> fl_text_type f <> lit "unicode" -> parse_argv f = SystemExit_.
Proof.
  intros f H1 H2. unfold parse_argv.
  destruct (str_eqb (fl_text_type f) (lit "bytes")) eqn:E1; [apply str_eqb_spec in E1; contradiction|].
  destruct (str_eqb (fl_text_type f) (lit "unicode")) eqn:E2; [apply str_eqb_spec in E2; contradiction|].
  reflexivity.
Qed.
Print Assumptions C68_flags_refused.

(** ** The header of a module *)

(** The version is checked unless the caller of the compiler said no. The
    reflection data is there unless the schema says no, or the caller does and
    the schema says nothing. *)
Theorem C68_header : forall lib o r ann a,
  match o with Some o => reads_as o r /\ int16s r | None => r = mkopts 2 2 0 2 end ->
  match ann with Some x => reads_as x a /\ int16s a | None => a = mkopts 2 2 0 2 end ->
  exists g, header lib o ann = Ok g /\ g_version g = lib /\
    (g_check g = false <-> version_check r = 0) /\
    (g_reflection g = false <->
       include_reflection_data a = 0 \/
       (include_reflection_data a = 2 /\ include_reflection_data r = 0)).
Proof.
  intros lib o r ann a Ho Ha.
  assert (D : exists dflt, generator_options o = Ok dflt /\ reads_as dflt (Options.combine (mkopts 1 1 1 1) r) /\
     int16s (Options.combine (mkopts 1 1 1 1) r)).
  { destruct default_reads as (dflt & D & Vd). destruct o as [o|].
    - destruct Ho as [V I]. destruct (combine_reads dflt o _ r Vd V int16s_default I) as (g & E & Vg & Ig).
      exists g. split; [|auto]. unfold generator_options in *. destruct (opt_call _); [|discriminate].
      cbn [bind] in *. congruence.
    - subst r. exists dflt. split; [auto|]. split; [exact Vd|exact int16s_default]. }
  destruct D as (dflt & D & Vd & Id). unfold header. rewrite D. cbn [bind].
  assert (F : exists file, match ann with Some x => opt_combine dflt x | None => Ok dflt end = Ok file /\
     reads_as file (Options.combine (Options.combine (mkopts 1 1 1 1) r) a)).
  { destruct ann as [x|].
    - destruct Ha as [V I]. destruct (combine_reads dflt x _ a Vd V Id I) as (g & E & Vg & Ig). eauto.
    - subst a. exists dflt. split; [reflexivity|exact Vd]. }
  destruct F as (file & F & Vf). rewrite F. cbn [bind].
  destruct Vd as (V1 & _). destruct Vf as (_ & _ & _ & V4). rewrite V1, V4. cbn [bind].
  unfold Options.combine, bool_notset. cbn [version_check convert_case text_type include_reflection_data].
  unfold bool_option. generalize (version_check r) as vr, (include_reflection_data r) as ir, (include_reflection_data a) as ia.
  clear. intros vr ir ia.
  destruct (Z.eqb_spec vr 2) as [E1 | E1]; cbn [negb].
  - cbn [Z.eqb]. cbn [bind negb].
    destruct (Z.eqb_spec ia 2) as [E2 | E2]; cbn [negb].
    + destruct (Z.eqb_spec ir 2) as [E3 | E3]; cbn [negb].
      * eexists. split; [reflexivity|]. cbn. rewrite E1, E2, E3. repeat split; try discriminate; lia.
      * destruct (Z.eqb_spec ir 2); [contradiction|]. cbn [bind].
        eexists. split; [reflexivity|]. cbn [g_version g_check g_reflection].
        destruct (Z.eqb_spec ir 0); cbn; repeat split; try discriminate; try lia; auto.
    + destruct (Z.eqb_spec ia 2); [contradiction|]. cbn [bind].
      eexists. split; [reflexivity|]. cbn [g_version g_check g_reflection].
      destruct (Z.eqb_spec ia 0); cbn; repeat split; try discriminate; try lia; auto.
  - destruct (Z.eqb_spec vr 2); [contradiction|]. cbn [bind].
    destruct (Z.eqb_spec ia 2) as [E2 | E2]; cbn [negb].
    + destruct (Z.eqb_spec ir 2) as [E3 | E3]; cbn [negb].
      * eexists. split; [reflexivity|]. cbn [g_version g_check g_reflection]. rewrite E2, E3.
        destruct (Z.eqb_spec vr 0); cbn; repeat split; try discriminate; try lia; auto.
      * destruct (Z.eqb_spec ir 2); [contradiction|]. cbn [bind].
        eexists. split; [reflexivity|]. cbn [g_version g_check g_reflection].
        destruct (Z.eqb_spec ir 0); destruct (Z.eqb_spec vr 0);
          cbn; repeat split; try discriminate; try lia; auto.
    + destruct (Z.eqb_spec ia 2); [contradiction|]. cbn [bind].
      eexists. split; [reflexivity|]. cbn [g_version g_check g_reflection].
      destruct (Z.eqb_spec ia 0); destruct (Z.eqb_spec vr 0);
          cbn; repeat split; try discriminate; try lia; auto.
Qed.
Print Assumptions C68_header.

(** Refuted: $Py.options(versionCheck = false) in the schema does not switch
    the check off. *)
Theorem C68_schema_version_check_refuted : exists ann,
  reads_as ann (mkopts 0 2 0 2) /\
  forall lib, exists g, header lib None (Some ann) = Ok g /\ g_check g = true.
Proof.
  eexists (match opt_new 0 2 0 2 with Ok o => o | Err _ => [] end).
  split; [repeat split; vm_compute; reflexivity|]. intros lib. eexists. split; [vm_compute; reflexivity|reflexivity].
Qed.
Print Assumptions C68_schema_version_check_refuted.

(** ** The version check *)

Lemma filter_In n name (l : list str) :
  In n (filter (fun x => negb (str_eqb x name)) l) <-> In n l /\ n <> name.
Proof.
  rewrite filter_In. destruct (str_eqb n name) eqn:E.
  - apply str_eqb_spec in E. cbn. split; intros [A B]; [discriminate|contradiction].
  - cbn. split; intros [A B]; split; auto. intros ->.
    assert (str_eqb name name = true) by now apply str_eqb_spec. congruence.
Qed.

(** A module imported for the first time: if it checks the version and was
    generated by another one, the import fails and leaves no trace of it in
    sys.modules, even if the module is an extension; otherwise the check does
    not prevent the import. The other modules are not touched. *)
Theorem C68_version_check : forall lib ext sys name g body sys' ok,
  ~ In name sys ->
  import_module lib ext sys name g body = (sys', ok) ->
  (g_check g = true /\ g_version g <> lib -> ok = false /\ ~ In name sys') /\
  (g_check g = false \/ g_version g = lib -> ok = body /\ (body = true -> In name sys')) /\
  (forall n, n <> name -> (In n sys' <-> In n sys)).
Proof.
  intros lib ext sys name g body sys' ok N H. unfold import_module in H.
  assert (E : existsb (str_eqb name) sys = false).
  { destruct (existsb _ sys) eqn:E; auto. apply existsb_exists in E. destruct E as (x & I & X).
    apply str_eqb_spec in X. subst. contradiction. }
  rewrite E in H. unfold check_version in H.
  destruct (str_eqb (g_version g) lib) eqn:V.
  - apply str_eqb_spec in V. cbn [negb] in H.
    assert (X : (if g_check g then (name :: sys, true) else (name :: sys, true)) = (name :: sys, true))
      by (now destruct (g_check g)).
    rewrite X in H. cbn [andb] in H. destruct body; pose proof (f_equal fst H) as H1; pose proof (f_equal snd H) as H2; cbn [fst snd] in H1, H2; subst sys' ok; clear H.
    + split; [intros [_ []]; auto|]. split; [intros; cbn; auto|].
      intros n Nn. cbn [In]. split; [intros [A|A]; [congruence|auto]|auto].
    + split; [intros [_ []]; auto|]. split; [intros; split; auto; discriminate|].
      intros n Nn. destruct ext; [|rewrite filter_In]; cbn [In]; intuition congruence.
  - assert (V' : g_version g <> lib) by (intros X; apply str_eqb_spec in X; congruence).
    cbn [negb] in H. destruct (g_check g) eqn:C.
    + cbn [andb] in H. pose proof (f_equal fst H) as H1; pose proof (f_equal snd H) as H2; cbn [fst snd] in H1, H2; subst sys' ok; clear H.
      split; [intros _; split; auto; destruct ext; rewrite ?filter_In; tauto|].
      split; [intros [X | X]; [discriminate|contradiction]|].
      intros n Nn. destruct ext; rewrite ?filter_In; cbn [In]; intuition congruence.
    + cbn [andb] in H. destruct body; pose proof (f_equal fst H) as H1; pose proof (f_equal snd H) as H2; cbn [fst snd] in H1, H2; subst sys' ok; clear H.
      * split; [intros [X _]; discriminate|]. split; [intros; cbn; auto|].
        intros n Nn. cbn [In]. split; [intros [A|A]; [congruence|auto]|auto].
      * split; [intros [X _]; discriminate|]. split; [intros; split; auto; discriminate|].
        intros n Nn. destruct ext; [|rewrite filter_In]; cbn [In]; intuition congruence.
Qed.
Print Assumptions C68_version_check.

(** ** Non-vacuity *)
Definition d1 := [(lit "text_type", PStr (lit "unicode")); (lit "convert_case", PBool false)].
Example C68_ex_dict : NoDup (map fst d1) /\ Forall legal d1 /\
  (exists o, from_dict d1 = Ok o /\ reads_as o (mkopts 2 0 2 2)) /\
  from_dict [(lit "convert_cas", PBool true)] = Err ValueError /\
  from_dict [(lit "text_type", PStr (lit "utf8"))] = Err ValueError.
Proof.
  split; [repeat constructor; cbn; intuition discriminate|]. split.
  - apply Forall_cons; [|apply Forall_cons; [|apply Forall_nil]]; unfold legal; cbn [fst snd].
    + right. auto.
    + left. split; [right; left; reflexivity|eauto].
  - split; [eexists; split; [vm_compute; reflexivity|repeat split; vm_compute; reflexivity]|split; vm_compute; reflexivity].
Qed.

Definition f1 := mkflags true (lit "unicode") true false true.
Example C68_ex_flags : exists o, parse_argv f1 = Done (PFalse, o) /\
  header (lit "0.10") (Some o) None = Ok (mkgmod (lit "0.10") true false) /\
  import_module (lit "0.10") true [lit "sys"] (lit "a.b") (mkgmod (lit "0.10") true false) true
    = ([lit "a.b"; lit "sys"], true) /\
  import_module (lit "0.11") true [lit "sys"] (lit "a.b") (mkgmod (lit "0.10") true false) true
    = ([lit "sys"], false) /\
  import_module (lit "0.11") true [lit "sys"] (lit "a.b") (mkgmod (lit "0.10") false false) true
    = ([lit "a.b"; lit "sys"], true).
Proof. eexists. split; [vm_compute; reflexivity|]. vm_compute. repeat split. Qed.
