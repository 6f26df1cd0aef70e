(** capnpy/schema.py is a case of C85: what the compiler has checked of its
    nodes, decided by computation *)
From Coq Require Import Strings.String.
From Verif Require CaseFacts FloatBits.
From Verif Require Import Base Spec Case Loader CopyList List Repr PyExpr PyPrint PySyntax PyRun PyModule PyModuleRun Ctor CtorFacts GenRun GenText ClassText TextSpec ClassSpec SchemaText SchemaRepr ModuleText ModuleSpec
  ReprText ReprTextFacts ReprTextSamples TextSamples ModuleSamples SchemaModule ModuleSchema.
From Coq Require Import Lists.List.
Local Notation length := Datatypes.length.
Local Open Scope string_scope.
Local Open Scope list_scope.
Local Open Scope Z_scope.

Definition classes_of (nodes : list mnode) : list str := flat_map (fun n => match n with NStruct s _ => [sd_name s] | NEnum _ n _ _ => [n] | _ => [] end) (all_nodes nodes).
Definition items_of (nodes : list mnode) : list (str * itype) :=
  flat_map (fun n => match n with NStruct s _ => [(item_name (sd_name s), ITStruct (sn_ds (sd_sn s)) (sn_ps (sd_sn s)))] | _ => [] end) (all_nodes nodes).

Section decide.
  Context (classes : list str) (items : list (str * itype)).
  (** the names of the module; the bodies of the classes play no part here *)
  Definition the_world : world :=
    mkworld 4 (fun _ => []) (fun _ => None)
      (fun n => if existsb (str_eqb n) classes then Some (XCls n)
                else match find (fun p => str_eqb (fst p) n) items with Some p => Some (XItem (snd p)) | None => None end) (fun _ _ => None) float_value.
  Definition nameb (n : str) : bool := ident n && negb (keyword n).
  Definition globalb (n : str) : bool := nameb n && upper_or_underscore n && negb (str_eqb n (lit "_buf")) && negb (among n functions) && negb (is n "_undefined").
  Definition classb (n : str) : bool := globalb n && existsb (str_eqb n) classes.
  Lemma nameb_ok n : nameb n = true -> TextSpec.py_name n.
  Proof. intros H. apply andb_prop in H. destruct H as (A & B). split; [exact A|]. destruct (keyword n); [discriminate B|reflexivity]. Qed.
  Lemma globalb_ok n : globalb n = true -> cls_text n (xVar n).
  Proof.
    intros H. apply andb_prop in H. destruct H as (H & _). apply andb_prop in H. destruct H as (H & _). apply andb_prop in H. destruct H as (H & C). apply andb_prop in H. destruct H as (A & B). apply ct_name; [apply nameb_ok, A|exact B|].
    intros ->. discriminate C.
  Qed.
  Lemma globalb_var n v dp st : globalb n = true -> w_global the_world n = Some v -> PyRun.ev (rt the_world dp) [] (fun _ => None) (xVar n) st = Ok (v, st).
  Proof.
    intros H G. apply andb_prop in H. destruct H as (H & U). apply andb_prop in H. destruct H as (_ & H). destruct (among n functions) eqn:F; [discriminate H|]. destruct (is n "_undefined") eqn:U'; [discriminate U|].
    destruct dp as [|dp]; cbn [PyRun.ev]; unfold var; cbn [existsb rt r_global]; rewrite F, U', G; reflexivity.
  Qed.
  Lemma keeps_any c : TextSpec.keeps the_world c. Proof. intros n J. reflexivity. Qed.
  Lemma classb_ok n : classb n = true -> means_class the_world n n.
  Proof.
    intros H. apply andb_prop in H. destruct H as (A & B). exists (xVar n). split; [apply globalb_ok, A|]. intros dp st. apply globalb_var; [exact A|]. cbn [the_world w_global]. now rewrite B.
  Qed.
  Definition eq_it (a b : itype) : bool := match a, b with ITStruct x y, ITStruct x' y' => (x =? x') && (y =? y') | _, _ => false end.
  Definition itemb (n : str) (t : itype) : bool :=
    globalb n && negb (existsb (str_eqb n) classes) && match find (fun p => str_eqb (fst p) n) items with Some p => eq_it (snd p) t | None => false end.
  Lemma itemb_ok n t : itemb n t = true -> means the_world n (XItem t).
  Proof.
    intros H. apply andb_prop in H. destruct H as (H & C). apply andb_prop in H. destruct H as (A & B). exists (xVar n). split; [apply it_cls, globalb_ok, A|].
    destruct (existsb (str_eqb n) classes) eqn:E; [discriminate B|]. destruct (find _ items) as [(m & t')|] eqn:F; [|discriminate C]. cbn [snd] in C.
    assert (X : t' = t). { destruct t', t; cbn in C; try discriminate C. apply andb_prop in C. destruct C as (C1 & C2). f_equal; lia. }
    subst t'. intros dp st. apply globalb_var; [exact A|]. cbn [the_world w_global]. now rewrite E, F.
  Qed.

  Definition refersb (nms : names) (t : ftype) (d : Z) : bool :=
    match t with
    | TStruct => classb (n_cls nms)
    | TEnum => classb (n_enum nms)
    | TList it => itemb (n_item nms) it
    | TFloat32 | TFloat64 => d =? 0
    | _ => true
    end.
  Lemma refersb_ok nms t d : refersb nms t d = true -> refers the_world floats nms t d (n_cls nms).
  Proof.
    assert (Z0 : float_reads the_world (floats 0) 0). { left. split; [split; vm_compute; reflexivity|vm_compute; reflexivity]. }
    intros H. destruct t; cbn [refers refersb] in *; try exact Logic.I.
    - assert (d = 0) as -> by lia. split; [lia|]. exact Z0.
    - assert (d = 0) as -> by lia. exact Z0.
    - exists (n_enum nms). split; [apply classb_ok, H|apply keeps_any].
    - split; [apply classb_ok, H|apply keeps_any].
    - apply itemb_ok, H.
  Qed.

  Definition plain (s : str) : bool := forallb (fun c => negb (c =? 39) && negb (c =? 92) && negb (c =? 10)) s.
  Definition some {A} (o : option A) : bool := match o with Some _ => true | None => false end.
  (** a group is not nullable: there is none in schema.py *)
  Fixpoint describedb (nm : string -> string -> names) (union : bool) (prefix : string) (f : field) : bool :=
    let name := f_name f in
    nameb (lit name) && negb (upper_or_underscore (lit name)) && (negb (is_member f) || union) &&
    match f with
    | FSlot n _ _ t _ _ d => refersb (nm prefix n) t d && match t with TAny => plain (n_repr (nm prefix n)) | _ => true end
    | FGroup n _ _ nullable utag fs =>
        existsb visible fs && negb nullable &&
        (fix all l := match l with [] => true | g :: r => (negb (visible g) || describedb nm (some utag) (varname prefix n) g) && all r end) fs
    end.
  Lemma describedb_ok nm f : forall union prefix, describedb nm union prefix f = true -> described the_world floats nm union prefix f.
  Proof.
    induction f as [n o dc t off ex d|n o dc nl u fs IH] using field_ind'; intros union prefix H; cbn [describedb described f_name] in *.
    - apply andb_prop in H. destruct H as (H & D). apply andb_prop in H. destruct H as (H & C). apply andb_prop in H. destruct H as (A & B). apply andb_prop in D. destruct D as (D & E).
      split; [apply nameb_ok, A|]. split; [destruct (upper_or_underscore _); [discriminate B|reflexivity]|].
      split; [intros M; rewrite M in C; exact C|]. split; [eexists; apply refersb_ok, D|]. intros -> c I. exact (plain_check _ E c I).
    - apply andb_prop in H. destruct H as (H & D). apply andb_prop in H. destruct H as (H & C). apply andb_prop in H. destruct H as (A & B). apply andb_prop in D. destruct D as (D & E). apply andb_prop in D. destruct D as (D & F).
      split; [apply nameb_ok, A|]. split; [destruct (upper_or_underscore _); [discriminate B|reflexivity]|].
      split; [intros M; rewrite M in C; exact C|]. split; [exact D|]. split; [destruct nl; [discriminate F|discriminate]|].
      clear - IH E. change (match u with Some _ => true | None => false end) with (some u). induction IH as [|g l Hg Hl IHl]; [exact Logic.I|].
      apply andb_prop in E. destruct E as (E1 & E2). split; [|exact (IHl E2)]. intros V. rewrite V in E1. apply Hg, E1.
  Qed.

  Definition strings_apart (l : list string) : bool := (fix go l := match l with [] => true | x :: r => negb (existsb (String.eqb x) r) && go r end) l.
  Lemma strings_apart_ok l : strings_apart l = true -> NoDup l.
  Proof.
    induction l as [|x l IH]; intros H; constructor.
    - intros I. cbn in H. apply andb_prop in H. destruct H as (H & _). assert (X : existsb (String.eqb x) l = true) by (apply existsb_exists; exists x; split; [exact I|apply String.eqb_refl]). rewrite X in H. discriminate H.
    - apply IH. cbn in H. apply andb_prop in H. apply H.
  Qed.
  Definition fieldb (nm : string -> string -> names) (union : bool) (f : field) : bool :=
    nameb (lit (f_name f)) &&
    match f with
    | FSlot n _ _ t _ _ d => refersb (nm "" n) t d
    | FGroup n _ _ nullable _ fs =>
        classb (n_group (nm "" n)) && negb nullable && nameb (like_name (lit n)) && strings_apart (map f_name (filter visible fs)) && describedb nm union "" f
    end.
  Lemma fieldb_ok nm union f : fieldb nm union f = true -> exists c', field_refers the_world floats nm union f c'.
  Proof.
    intros H. apply andb_prop in H. destruct H as (A & H). destruct f as [n o dc t off ex d|n o dc nl u fs].
    - eexists. split; [apply nameb_ok, A|]. apply refersb_ok, H.
    - apply andb_prop in H. destruct H as (H & F). apply andb_prop in H. destruct H as (H & E). apply andb_prop in H. destruct H as (H & D). apply andb_prop in H. destruct H as (B & C).
      eexists. split; [apply nameb_ok, A|]. split; [apply classb_ok, B|]. split; [apply keeps_any|]. intros _. split; [apply nameb_ok, D|]. split; [apply strings_apart_ok, E|]. apply describedb_ok, F.
  Qed.
  Definition eq_disc (a b : option Z) : bool := match a, b with Some x, Some y => x =? y | None, None => true | _, _ => false end.
  Definition discs_apart (l : list (option Z)) : bool := (fix go l := match l with [] => true | x :: r => negb (existsb (eq_disc x) r) && go r end) l.
  Lemma discs_apart_ok l : discs_apart l = true -> NoDup l.
  Proof.
    induction l as [|x l IH]; intros H; constructor.
    - intros I. cbn in H. apply andb_prop in H. destruct H as (H & _). assert (X : existsb (eq_disc x) l = true). { apply existsb_exists; exists x; split; [exact I|]. destruct x; [apply Z.eqb_refl|reflexivity]. } rewrite X in H. discriminate H.
    - apply IH. cbn in H. apply andb_prop in H. apply H.
  Qed.
  Definition numberedb (fs : list field) : bool :=
    let members := filter is_member fs in
    discs_apart (map f_disc members) && forallb (fun f => match f_disc f with Some d => (0 <=? d) && (d <? Z.of_nat (length members)) | None => true end) members.
  Lemma numberedb_ok fs : numberedb fs = true -> numbered fs.
  Proof.
    intros H. apply andb_prop in H. destruct H as (A & B). split; [apply discs_apart_ok, A|]. intros f d I E. rewrite forallb_forall in B. specialize (B f I). rewrite E in B. lia.
  Qed.
  Definition classb_described (nm : string -> string -> names) (cls : str) (group : bool) (sn : struct_node) : bool :=
    classb cls && forallb (fieldb nm (some (sn_utag sn))) (sn_fields sn) &&
    (group || forallb (fun f => negb (visible f) || (describedb nm (some (sn_utag sn)) "" f && negb (String.eqb (f_name f) "self") && negb (String.eqb (f_name f) "cls"))) (sn_fields sn) &&
              strings_apart (map f_name (filter visible (sn_fields sn)))) &&
    numberedb (sn_fields sn) && (some (sn_utag sn) || match filter is_member (sn_fields sn) with [] => true | _ => false end).
  Lemma classb_described_ok nm cls group sn : classb_described nm cls group sn = true -> class_described the_world floats nm cls cls group sn.
  Proof.
    intros H. apply andb_prop in H. destruct H as (H & E). apply andb_prop in H. destruct H as (H & D). apply andb_prop in H. destruct H as (H & C). apply andb_prop in H. destruct H as (A & B).
    apply mkcd.
    - apply classb_ok, A.
    - intros f I. rewrite forallb_forall in B. apply fieldb_ok, B, I.
    - intros ->. cbn [orb] in C. apply andb_prop in C. destruct C as (C & C'). rewrite forallb_forall in C. apply mknode.
      + intros f I V. specialize (C f I). rewrite V in C. cbn [negb orb] in C. apply andb_prop in C. destruct C as (C & _). apply andb_prop in C. destruct C as (C & _). apply describedb_ok, C.
      + apply strings_apart_ok, C'.
      + intros f I V. specialize (C f I). rewrite V in C. cbn [negb orb] in C. apply andb_prop in C. destruct C as (C & C2). apply andb_prop in C. destruct C as (_ & C1).
        split; [intros X; rewrite X in C1; discriminate C1|intros _ X; rewrite X in C2; discriminate C2].
    - split; [apply numberedb_ok, D|]. intros U. rewrite U in E. cbn [some orb] in E. now destruct (filter is_member (sn_fields sn)).
  Qed.

  (** the values of constants are numbers *)
  Definition number_of (v : str) : pexp := xNum (fold_left (fun a c => a * 10 + (c - 48)) v 0).
  Definition valueb (v : str) : bool := match number_of v with xNum k => (0 <=? k) && str_eqb (sh (xNum k)) v | _ => false end.
  Definition idb (z : Z) : bool := (0 <=? z) && (z <? 2 ^ 64).
  Definition node_readableb (nm : str -> string -> string -> names) (n : mnode) : bool :=
    match n with
    | NStruct s ch => nameb (sd_short s) && nameb (sd_name s) && plain (sd_dotname s) && idb (sd_id s) &&
        classb_described (nm (sd_name s)) (sd_name s) (sd_group s) (sd_sn s) &&
        forallb (fun f => ident (nf_name f) && negb (keyword (nf_name f)) && ident (rf_cap (nf_field f))) (sd_fields s) && negb (some (sd_key s))
    | NEnum short n _ items => nameb short && nameb n && match items with [] => false | _ => true end && forallb plain items
    | NConst n v => nameb n && valueb v
    | NAnn n id _ => nameb n && idb id
    end.
  Lemma idb_ok z : idb z = true -> 0 <= z < 2 ^ 64.
  Proof. unfold idb. intros H. apply andb_prop in H. lia. Qed.
  Lemma node_readableb_ok nm n : node_readableb nm n = true -> node_readable the_world floats nm number_of n.
  Proof.
    destruct n as [s ch|short n id its|n v|n id ts]; cbn [node_readableb node_readable]; intros H.
    - apply andb_prop in H. destruct H as (H & K). apply andb_prop in H. destruct H as (H & F). apply andb_prop in H. destruct H as (H & E). apply andb_prop in H. destruct H as (H & D). apply andb_prop in H. destruct H as (H & C). apply andb_prop in H. destruct H as (A & B).
      split; [apply nameb_ok, A|]. split; [apply nameb_ok, B|]. split; [apply plain_check, C|]. split; [apply idb_ok, D|]. split; [eexists; apply classb_described_ok, E|]. split; [apply shown_check, F|].
      destruct (sd_key s); [discriminate K|exact Logic.I].
    - apply andb_prop in H. destruct H as (H & D). apply andb_prop in H. destruct H as (H & C). apply andb_prop in H. destruct H as (A & B).
      split; [apply nameb_ok, A|]. split; [apply nameb_ok, B|]. split; [destruct its; [discriminate C|discriminate]|]. apply plains_check, D.
    - apply andb_prop in H. destruct H as (A & B). split; [apply nameb_ok, A|]. unfold value_read, valueb in *. destruct (number_of v); try discriminate B.
      apply andb_prop in B. destruct B as (B & C). split; [cbn [wfx]; lia|]. split; [apply CaseFacts.str_eqb_spec, C|exact Logic.I].
    - apply andb_prop in H. destruct H as (A & B). split; [apply nameb_ok, A|apply idb_ok, B].
  Qed.
End decide.

Definition readableb (nm : str -> string -> string -> names) (nodes : list mnode) : bool :=
  forallb (node_readableb (classes_of nodes) (items_of nodes) nm) (all_nodes nodes).
(** the enum of the field preferredListEncoding, which the texts of the
    constructors of Node do not contain *)
Definition schema_names (c : str) (prefix n : string) : names :=
  if String.eqb n "preferredListEncoding" then mknames [] (lit "ElementSize") [] [] [] else names_of schema_classes c prefix n.
Lemma schema_text : same_text (module_text floats schema_names schema_header schema_nodes) (map lit schema_py ++ [[]]) = true.
Proof. vm_compute. reflexivity. Qed.
Lemma schema_readable : readable (the_world (classes_of schema_nodes) (items_of schema_nodes)) floats schema_names number_of schema_header schema_nodes.
Proof.
  split; [split; [unfold schema_header, h_id; lia|]; split; [apply plain_check; vm_compute; reflexivity|]; split; [apply plain_check; vm_compute; reflexivity|exact Logic.I]|].
  assert (H : readableb schema_names schema_nodes = true) by (vm_compute; reflexivity).
  intros n I. apply node_readableb_ok. unfold readableb in H. rewrite forallb_forall in H. exact (H n I).
Qed.
