(** Property theorems C50-C54: the names of generated modules, load_schema,
    the distutils compiler. *)
From Coq Require Import Strings.String Strings.Ascii.
From Verif Require Import Base Case CaseFacts Options Loader LoaderFacts LoaderFacts2 Dist Names NamesFacts.
From Coq Require Import Lists.List.
Local Notation length := Datatypes.length.

(** C50. The body of the class executes, and every accessor is the one that
    was generated for its field ([capnp_class]: what the schema compiler
    guarantees; [no_clash]: no name of the schema is one that capnpy makes up). *)
Theorem C50_accessors : forall c, capnp_class c -> no_clash c ->
  exists ns, exec_class [] (class_items c) = Ok ns /\
    (forall f, In f (c_fields c) ->
       get_attr ns (fd_py f) = Some (AProp f) /\
       (fd_kind f = KPointer -> get_attr ns (lit "get_" ++ fd_py f) = Some (AGet f)) /\
       (pointerish (fd_kind f) -> get_attr ns (lit "has_" ++ fd_py f) = Some (AHas f)) /\
       (fd_kind f = KGroup -> get_attr ns (capitalize (fd_py f)) = Some (ALike f)) /\
       (fd_kind f = KNullable -> get_attr ns (lit "_" ++ fd_py f) = Some (APriv f)) /\
       (forall d, fd_union f = Some d ->
          get_attr ns (lit "is_" ++ fd_py f) = Some (AIs d) /\
          (c_group c = false -> get_attr ns (lit "new_" ++ fd_py f) = Some (ANew f)))) /\
    (forall n, In n (c_children c) -> get_attr ns n = Some (AChild n)) /\
    get_attr ns (lit "shortrepr") = Some (AOther (lit "shortrepr")) /\
    (c_keyed c = true -> get_attr ns (lit "_key") = Some (AOther (lit "_key"))).
Proof. exact class_accessors. Qed.
Print Assumptions C50_accessors.

(** What is inherited (which, dumps, compact, load, ...) is hidden only by a
    field or a nested declaration of the same name ... *)
Theorem C50_hides : forall c n, capnp_class c -> no_clash c ->
  starts is_lower n ->
  ~ (exists p r, In p [lit "get_"; lit "has_"; lit "is_"; lit "new_"] /\ n = p ++ r) ->
  n <> lit "shortrepr" ->
  forall ns, exec_class [] (class_items c) = Ok ns ->
  get_attr ns n <> None <-> (exists f, In f (c_fields c) /\ fd_py f = n) \/ In n (c_children c).
Proof. exact class_hides. Qed.
Print Assumptions C50_hides.
(** ... and the private parts of the base classes (_seg, _read_int16, ...) only by
    a nullable field called seg, read_int16, ... *)
Theorem C50_hides_private : forall c n, capnp_class c -> no_clash c -> starts is_lower n -> n <> lit "key" ->
  forall ns, exec_class [] (class_items c) = Ok ns ->
  get_attr ns (lit "_" ++ n) <> None <-> exists f, In f (c_fields c) /\ fd_kind f = KNullable /\ fd_py f = n.
Proof. exact class_hides_private. Qed.
Print Assumptions C50_hides_private.

(** A field called property, before any other field: the class cannot be
    created. *)
Theorem C50_property_refuted : forall c l1 f l2,
  c_fields c = l1 ++ f :: l2 -> fd_py f = lit "property" -> l2 <> [] ->
  exec_class [] (class_items c) = Err TypeError.
Proof. exact class_property_field. Qed.
Print Assumptions C50_property_refuted.

Definition fx := mkfdesc (lit "x") KPointer None.
Definition fa := mkfdesc (lit "circle") KScalar (Some 0).
Definition fb := mkfdesc (lit "square") KPointer (Some 1).
Definition fg := mkfdesc (lit "pos_ition") KGroup None.
Definition fn := mkfdesc (lit "weight") KNullable None.
Definition shape_class := mkcdesc (lit "Shape") false [lit "Kind"; lit "maxSize"] 2 [fx; fa; fb; fg; fn] true.
Example C50_ex : capnp_class shape_class /\ no_clash shape_class.
Proof.
  assert (Q : forall (P : fdesc -> Prop), P fx -> P fa -> P fb -> P fg -> P fn -> forall f, In f (c_fields shape_class) -> P f).
  { intros P H1 H2 H3 H4 H5 f I. cbn in I. destruct I as [<-|[<-|[<-|[<-|[<-|[]]]]]]; assumption. }
  assert (Q2 : forall (P : fdesc -> fdesc -> Prop),
    Forall (fun f => Forall (P f) [fx; fa; fb; fg; fn]) [fx; fa; fb; fg; fn] ->
    forall f g, In f (c_fields shape_class) -> In g (c_fields shape_class) -> P f g).
  { intros P H f g If Ig. rewrite Forall_forall in H. specialize (H f If). rewrite Forall_forall in H. exact (H g Ig). }
  split; constructor.
  - eexists _, _. split; reflexivity.
  - refine (Q (fun f => _) _ _ _ _ _); eexists _, _; split; reflexivity.
  - refine (Q2 (fun f g => _) _). repeat constructor; intros E; first [reflexivity|discriminate E].
  - intros n [<-|[<-|[]]]; (split; [eexists _, _; split; reflexivity|]); vm_compute; intuition discriminate.
  - intros n f [<-|[<-|[]]] If; revert f If; refine (Q (fun f => _) _ _ _ _ _); discriminate.
  - intros f d If. revert f If. refine (Q (fun f => _) _ _ _ _ _); intros E; vm_compute in E; try discriminate; injection E as <-; vm_compute; intuition discriminate.
  - intros f g d If Ig. revert f g If Ig. refine (Q2 (fun f g => _) _). repeat constructor; intros E1 E2; cbn in E1, E2; congruence.
  - intros i L. cbn in L. destruct i as [|[|i]]; [exists fa|exists fb|lia]; (split; [vm_compute; tauto|reflexivity]).
  - refine (Q2 (fun f g => _) _). repeat constructor; discriminate.
  - refine (Q2 (fun f g => _) _). repeat constructor; discriminate.
  - refine (Q2 (fun f g => _) _). repeat constructor; discriminate.
  - refine (Q2 (fun f g => _) _). repeat constructor; discriminate.
  - refine (Q2 (fun f g => _) _). repeat constructor; intros K1 K2; first [discriminate K1|discriminate K2|reflexivity].
  - intros f n If K [<-|[<-|[]]]; revert f If K; refine (Q (fun f => _) _ _ _ _ _); intros K; try discriminate K; discriminate.
  - split; [refine (Q (fun f => _) _ _ _ _ _); discriminate|vm_compute; intuition discriminate].
  - intros _. refine (Q (fun f => _) _ _ _ _ _); intros K; try discriminate K; discriminate.
  - intros d [<-|[<-|[<-|[]]]]; (split; [refine (Q (fun f => _) _ _ _ _ _); discriminate|vm_compute; intuition discriminate]).
Qed.

(** Each clause of [no_clash] is needed. Fields x :Text and getX :Int32: the
    getter of x is gone. *)
Definition shadow (c : cdesc) (n : str) : res (option attr) :=
  match exec_class [] (class_items c) with Ok ns => Ok (get_attr ns n) | Err e => Err e end.
Definition fgetx := mkfdesc (lit "get_x") KScalar None.
Definition fgroup := mkfdesc (lit "point") KGroup None.
Definition fkey := mkfdesc (lit "key") KNullable None.
Definition frepr := mkfdesc (lit "shortrepr") KScalar None.
Definition fseg := mkfdesc (lit "seg") KNullable None.
Definition fwhich := mkfdesc (lit "which") KScalar None.
Theorem C50_clashes_refuted :
  (* x :Text; getX :Int32 *)
  shadow (mkcdesc (lit "S") false [] 0 [fx; fgetx] false) (lit "get_x") = Ok (Some (AProp fgetx)) /\
  (* getX :Int32; x :Text: now the field getX is gone *)
  shadow (mkcdesc (lit "S") false [] 0 [fgetx; fx] false) (fd_py fgetx) = Ok (Some (AGet fx)) /\
  (* point :group { ... }; struct Point { ... }: the nested struct is gone *)
  shadow (mkcdesc (lit "S") false [lit "Point"] 0 [fgroup] false) (lit "Point") = Ok (Some (ALike fgroup)) /\
  (* a nullable field called key in a struct with $Py.key *)
  shadow (mkcdesc (lit "S") false [] 0 [fkey] true) (lit "_key") = Ok (Some (AOther (lit "_key"))) /\
  (* a field called shortrepr *)
  shadow (mkcdesc (lit "S") false [] 0 [frepr] false) (lit "shortrepr") = Ok (Some (AOther (lit "shortrepr"))) /\
  (* a field called which hides Struct.which, a nullable field seg hides _seg *)
  shadow (mkcdesc (lit "S") false [] 0 [fwhich] false) (lit "which") = Ok (Some (AProp fwhich)) /\
  shadow (mkcdesc (lit "S") false [] 0 [fseg] false) (lit "_seg") = Ok (Some (APriv fseg)).
Proof. vm_compute. repeat split. Qed.
Print Assumptions C50_clashes_refuted.

(** C51. Names of declarations, from their paths: different declarations have
    different names, and every definition of the module is found under its
    name. *)
Theorem C51_injective : forall n m,
  nd_path n <> [] -> Forall capnp_id (nd_path n) -> nd_path m <> [] -> Forall capnp_id (nd_path m) ->
  compile_name n = compile_name m -> nd_path n = nd_path m.
Proof. exact compile_name_inj. Qed.
Print Assumptions C51_injective.
Theorem C51_defined : forall ns, capnp_file ns -> annotations_on_top ns ->
  forall x b, get_name (module_defs ns) x = Some b <-> In (x, b) (module_defs ns).
Proof. exact module_names. Qed.
Print Assumptions C51_defined.
(** no declaration takes a name the module itself needs *)
Theorem C51_reserved : forall ns x, capnp_file ns -> annotations_on_top ns ->
  starts (fun c => c =? underscore) x -> ~ (exists y, x = y ++ lit "_list_item_type") ->
  get_name (module_defs ns) x = None.
Proof. exact module_reserved. Qed.
Print Assumptions C51_reserved.
(** which names of a class are keywords: those of nested declarations and of
    groups (true, false, none) *)
Theorem C51_keywords : forall c, capnp_class c -> (forall f, In f (c_fields c) -> ~ In (fd_py f) kwlist3) ->
  (forall x, In x (class_items c) -> ~ In (it_name x) kwlist3) <->
  (forall n, In n (c_children c) -> ~ In n kwlist3) /\
  (forall f, In f (c_fields c) -> fd_kind f = KGroup -> ~ In (capitalize (fd_py f)) kwlist3).
Proof. exact class_keywords. Qed.
Print Assumptions C51_keywords.

Definition n_outer := mkndesc [lit "Outer"] (NStruct true).
Definition n_inner := mkndesc [lit "Outer"; lit "Inner"] (NStruct false).
Definition n_enum := mkndesc [lit "Outer"; lit "Color"] NEnum.
Definition n_ann := mkndesc [lit "unit"] NAnnotation.
Definition n_const := mkndesc [lit "maxSize"] NConst.
Definition n_ann1 := mkndesc [lit "Outer"; lit "unit"] NAnnotation.
Definition file1 := [n_outer; n_inner; n_enum; n_ann; n_const].
Example C51_ex : capnp_file file1 /\ annotations_on_top file1 /\
  get_name (module_defs file1) (lit "Outer_Inner") = Some (BClass n_inner) /\
  get_name (module_defs file1) (lit "Outer__tag__") = Some (BTag n_outer) /\
  get_name (module_defs file1) (lit "_Outer_Color_list_item_type") = Some (BItem n_enum) /\
  get_name (module_defs file1) (lit "_Struct") = None.
Proof.
  split; [constructor|split].
  - intros n I. cbn in I. destruct I as [<-|[<-|[<-|[<-|[<-|[]]]]]]; (split; [discriminate|]);
      repeat constructor; try discriminate; vm_compute; intuition discriminate.
  - intros n m I J. cbn in I, J. destruct I as [<-|[<-|[<-|[<-|[<-|[]]]]]], J as [<-|[<-|[<-|[<-|[<-|[]]]]]];
      intros E; first [reflexivity|discriminate E].
  - intros n I. cbn in I. destruct I as [<-|[<-|[<-|[<-|[<-|[]]]]]]; intros K; try discriminate K. eexists. reflexivity.
  - vm_compute. repeat split.
Qed.
(** A nested annotation is declared under its short name, and takes the place
    of another one. Names that are Python keywords are not changed, except
    those of fields. *)
Theorem C51_annotation_refuted :
  capnp_file [n_ann; n_outer; n_ann1] /\
  In (lit "unit", BAnnotation n_ann) (module_defs [n_ann; n_outer; n_ann1]) /\
  get_name (module_defs [n_ann; n_outer; n_ann1]) (lit "unit") = Some (BAnnotation n_ann1).
Proof.
  split; [constructor|split; [vm_compute; tauto|reflexivity]].
  - intros n I. cbn in I. destruct I as [<-|[<-|[<-|[]]]]; (split; [discriminate|]);
      repeat constructor; try discriminate; vm_compute; intuition discriminate.
  - intros n m I J. cbn in I, J. destruct I as [<-|[<-|[<-|[]]]], J as [<-|[<-|[<-|[]]]];
      intros E; first [reflexivity|discriminate E].
Qed.
Print Assumptions C51_annotation_refuted.
Theorem C51_keyword_refuted :
  (* struct None at the top *)
  In (lit "None", BClass (mkndesc [lit "None"] (NStruct false))) (module_defs [mkndesc [lit "None"] (NStruct false)]) /\
  In (lit "None") kwlist3 /\
  (* none :group { ... } *)
  In (lit "None") (map it_name (class_items (mkcdesc (lit "S") false [] 0 [mkfdesc (lit "none") KGroup None] false))).
Proof. vm_compute. tauto. Qed.
Print Assumptions C51_keyword_refuted.

(** C52. The variables of the imported schemas: different, and in the order
    and number of the imports that are used ... *)
Theorem C52_distinct : forall imps l, declare_imports [] imps = Ret l ->
  l = map (fun u => (import_var (fst u), snd u))
        (filter (fun u => negb (str_eqb (snd u) (lit "/capnp/c++.capnp"))) (used_imports imps)) /\
  NoDup (map fst l).
Proof. intros imps l H. destruct (declare_values imps [] l H) as (A & B & _). split; assumption. Qed.
Print Assumptions C52_distinct.
(** ... the generator fails exactly if two of the imported files have the same
    base name (up to + and PLUS), or a name is not ASCII *)
Definition ascii_only (s : str) : Prop := forall c, In c s -> 0 <= c < 128.
Lemma ascii_spec s : ascii s = true <-> ascii_only s.
Proof.
  unfold ascii, ascii_only. rewrite forallb_forall. split; intros H c I; specialize (H c I); lia.
Qed.
Lemma declare_ascii : forall imps names l, declare_imports names imps = Ret l ->
  forall fname name, In (fname, name) (used_imports imps) -> ascii fname = true /\ ascii name = true.
Proof.
  induction imps as [|i r IH]; intros names l H fname name I; [destruct I|].
  cbn [declare_imports used_imports flat_map] in *. destruct (imp_node i) as [f|]; [|eapply IH; [exact H|exact I]].
  destruct (ascii f) eqn:A; [|discriminate H]. cbn [negb] in H. destruct (register_import names f) as [n|]; [|discriminate H].
  destruct (ascii (imp_name i)) eqn:A2; [|discriminate H]. cbn [negb] in H.
  destruct (declare_imports _ r) as [l'|] eqn:D; [|discriminate H].
  destruct I as [I|I]; [injection I as <- <-; auto|eapply IH; [exact D|exact I]].
Qed.
Theorem C52_exact : forall imps,
  (exists l, declare_imports [] imps = Ret l) <->
  NoDup (map (fun u => import_var (fst u)) (used_imports imps)) /\
  (forall fname name, In (fname, name) (used_imports imps) -> ascii_only fname /\ ascii_only name).
Proof.
  intros imps. split.
  - intros (l & H). pose proof (declare_ascii _ _ _ H) as A. split; [|intros f n I; rewrite <- !ascii_spec; apply (A _ _ I)].
    apply (declare_spec imps []); [|eauto]. intros i fname I N. apply A. unfold used_imports. apply in_flat_map. exists i.
    split; [exact I|]. rewrite N. left. reflexivity.
  - intros (ND & A). apply (declare_spec imps []).
    + intros i fname I N. rewrite !ascii_spec. apply A. unfold used_imports. apply in_flat_map. exists i.
      split; [exact I|]. rewrite N. left. reflexivity.
    + split; [exact ND|]. intros u _ [].
Qed.
Print Assumptions C52_exact.
Theorem C52_clash : forall a b, import_var a = import_var b <->
  replace 43 (lit "PLUS") (purebasename (local [] a)) = replace 43 (lit "PLUS") (purebasename (local [] b)).
Proof. exact import_var_eq. Qed.
Print Assumptions C52_clash.
(** ... and the variable is a Python identifier exactly if the base name has
    only letters, digits, underscores and plus signs *)
Theorem C52_identifier : forall fname, ident (import_var fname) = true <->
  forall c, In c (purebasename (local [] fname)) -> is_alnum c = true \/ c = underscore \/ c = 43.
Proof. exact import_var_ident. Qed.
Print Assumptions C52_identifier.
Definition imp (n : string) : import_ := mkimport (lit n) (Some (lit n)).
Example C52_ex :
  declare_imports [] [imp "/a/foo.capnp"; mkimport (lit "/unused.capnp") None; imp "/capnp/c++.capnp"; imp "/x++.capnp"] =
    Ret [(lit "_foo_capnp", lit "/a/foo.capnp"); (lit "_xPLUSPLUS_capnp", lit "/x++.capnp")].
Proof. reflexivity. Qed.
(** two imported files of the same name, in different directories; a file
    whose name has a dash *)
Theorem C52_clash_refuted :
  declare_imports [] [imp "/a/foo.capnp"; imp "/b/foo.capnp"] = Raise LAttribute /\
  ident (import_var (lit "/foo-bar.capnp")) = false.
Proof. split; reflexivity. Qed.
Print Assumptions C52_clash_refuted.

(** C53. After a successful load, every later load that means the same file,
    in whatever way it is named and with whatever mode and options, after any
    history of loads, edits and changes of directory, returns the same module
    and changes nothing. *)
Theorem C53_same_module : forall fuel w a pyx o m w1 f,
  load_schema fuel w a pyx o = (Ret m, w1) -> get_filename w a = Ret f ->
  forall ops a' pyx' o' fuel' px',
    get_filename (run w1 ops) a' = Ret f -> getpyx (run w1 ops) pyx' = Ret px' ->
    load_schema (S fuel') (run w1 ops) a' pyx' o' = (Ret m, run w1 ops).
Proof. exact load_same_object. Qed.
Print Assumptions C53_same_module.
(** A load that fails leaves its file as it was in the cache, so it can be
    tried again; no history removes or replaces a module of the cache. *)
Theorem C53_failure : forall fuel w a pyx o e w1 f,
  load_schema fuel w a pyx o = (Raise e, w1) -> get_filename w a = Ret f ->
  lookup f (w_mods w1) = lookup f (w_mods w).
Proof. exact load_failure. Qed.
Print Assumptions C53_failure.
Theorem C53_cache : forall ops w p m,
  lookup p (w_mods w) = Some m -> lookup p (w_mods (run w ops)) = Some m.
Proof. exact run_keeps. Qed.
Print Assumptions C53_cache.
(** A file that is loaded for the first time: the module is compiled from its
    current content, with the mode and the options asked for, and each of its
    imports is the module that load_schema gives for it. *)
Theorem C53_imports : forall fuel w a pyx o m w1 f,
  load_schema fuel w a pyx o = (Ret m, w1) -> get_filename w a = Ret f -> lookup f (w_mods w) = None ->
  exists md, nth_error (w_heap w1) m = Some md /\ m_path md = f /\ w_fs w f = Some (m_src md) /\
    getpyx w pyx = Ret (m_pyx md) /\ m_opts md = default_options o /\
    (forall n, imports w f n -> exists name r, In (name, r) (m_refs md) /\
       forall fuel' pyx' o' px', getpyx w1 pyx' = Ret px' ->
         load_schema (S fuel') w1 (by_importname n) pyx' o' = (Ret r, w1)).
Proof. exact load_refs. Qed.
Print Assumptions C53_imports.
(** Python mode: a file loads exactly if it is loadable (Loader.v: the
    sources are good, the imports are found, and there is no cycle). *)
Theorem C53_exact : forall w a o f, get_filename w a = Ret f ->
  (exists fuel m w1, load_schema fuel w a PFalse o = (Ret m, w1)) <-> loadable w f o.
Proof. exact load_exact. Qed.
Print Assumptions C53_exact.
(** pyx mode: moreover, the base names of the files that import one another
    must be different; then sys.modules ends as it was *)
Theorem C53_pyx : forall w a pyx o f,
  get_filename w a = Ret f -> getpyx w pyx = Ret true -> loadable_pyx w [] f o ->
  exists fuel m w1, load_schema fuel w a pyx o = (Ret m, w1) /\ w_sys w1 = w_sys w.
Proof. exact load_pyx. Qed.
Print Assumptions C53_pyx.
Theorem C53_py_sys : forall fuel w a pyx o r w', getpyx w pyx = Ret false ->
  load_schema fuel w a pyx o = (r, w') -> w_sys w' = w_sys w.
Proof. exact load_py_sys. Qed.
Print Assumptions C53_py_sys.
(** how files are named *)
Theorem C53_search : forall fs dirs n f, find_file fs dirs n = Ret f <->
  exists l d r, dirs = l ++ d :: r /\ f = join d n /\ fs f <> None /\ Forall (fun d' => fs (join d' n) = None) l.
Proof. exact find_file_first. Qed.
Print Assumptions C53_search.
Theorem C53_modname : forall w modname,
  get_filename w (by_modname modname) =
  get_filename w (by_importname (slash :: replace dot [slash] modname ++ lit ".capnp")).
Proof. exact modname_importname. Qed.
Print Assumptions C53_modname.
Theorem C53_one_argument : forall w a f, get_filename w a = Ret f ->
  exists n, a = by_modname n \/ a = by_importname (slash :: n) \/ a = by_filename n.
Proof. exact one_argument. Qed.
Print Assumptions C53_one_argument.
(** a file name is relative to the current directory unless it starts with a
    slash; [walk d comps d']: following [comps] from the directory [d] *)
Inductive walk : path -> list str -> path -> Prop :=
| walk_end : forall d, walk d [] d
| walk_stay : forall d c comps d', c = [] \/ c = lit "." -> walk d comps d' -> walk d (c :: comps) d'
| walk_up : forall d x comps d', walk d comps d' -> walk (d ++ [x]) (lit ".." :: comps) d'
| walk_top : forall comps d', walk [] comps d' -> walk [] (lit ".." :: comps) d'
| walk_down : forall d c comps d', c <> [] -> c <> lit "." -> c <> lit ".." -> walk (d ++ [c]) comps d' -> walk d (c :: comps) d'.
Fixpoint joined (comps : list str) : str :=
  match comps with [] => [] | [x] => x | x :: r => x ++ lit "/" ++ joined r end.
Lemma joined_split s : joined (Loader.split slash s) = s /\ Loader.split slash s <> [] /\ Forall (fun x => ~ In slash x) (Loader.split slash s).
Proof.
  induction s as [|c s (A & B & C)]; cbn [Loader.split].
  - split; [reflexivity|]. split; [discriminate|]. repeat constructor. intros [].
  - destruct (Loader.split slash s) as [|x l] eqn:E; [congruence|]. destruct (Z.eqb_spec c slash) as [->|N].
    + split; [cbn [joined] in *; rewrite <- A; reflexivity|]. split; [discriminate|]. constructor; [intros []|exact C].
    + inversion C as [|y m C1 C2]; subst y m. split; [|split; [discriminate|]].
      * rewrite <- A. destruct l; reflexivity.
      * constructor; [|exact C2]. intros [I|I]; [congruence|auto].
Qed.
Lemma walk_normp : forall comps st, walk (rev st) comps (normp st comps).
Proof.
  induction comps as [|c r IH]; intros st; cbn [normp]; [apply walk_end|].
  destruct (str_eqb c [] || str_eqb c [dot]) eqn:E.
  - apply walk_stay; [|apply IH]. apply orb_prop in E as [E|E]; apply str_eqb_spec in E; auto.
  - apply orb_false_elim in E as [E1 E2]. destruct (str_eqb c [dot; dot]) eqn:E3.
    + apply str_eqb_spec in E3. subst c. change [dot; dot] with (lit ".."). destruct st as [|x st]; cbn [tl rev]; [apply walk_top; exact (IH [])|apply walk_up, IH].
    + apply walk_down; try (intros ->; discriminate). apply (IH (c :: st)).
Qed.
Lemma local_walk cwd n : walk (match n with c :: _ => if c =? slash then [] else cwd | [] => cwd end) (Loader.split slash n) (local cwd n).
Proof.
  unfold local, join. destruct n as [|c n]; [|destruct (c =? slash)].
  - apply walk_stay; [left; reflexivity|apply walk_end].
  - apply (walk_normp _ []).
  - pose proof (walk_normp (Loader.split slash (c :: n)) (rev cwd)) as W. rewrite rev_involutive in W. exact W.
Qed.
Theorem C53_filename : forall w n, exists f comps,
  get_filename w (by_filename n) = Ret f /\ n = joined comps /\ Forall (fun c => ~ In slash c) comps /\
  walk (if match n with c :: _ => c =? slash | [] => false end then [] else w_cwd w) comps f.
Proof.
  intros w n. exists (local (w_cwd w) n), (Loader.split slash n). destruct (joined_split n) as (A & B & C).
  split; [reflexivity|]. split; [congruence|]. split; [exact C|]. pose proof (local_walk (w_cwd w) n) as W.
  destruct n as [|c n]; [exact W|]. destruct (c =? slash); exact W.
Qed.
Print Assumptions C53_filename.
(** ... and an import name from the directories of the search path *)
Theorem C53_join : forall d n, exists comps,
  n = joined comps /\ Forall (fun c => ~ In slash c) comps /\ walk d comps (join d n).
Proof.
  intros d n. exists (Loader.split slash n). destruct (joined_split n) as (A & B & C). split; [congruence|]. split; [exact C|].
  unfold join. pose proof (walk_normp (Loader.split slash n) (rev d)) as W. rewrite rev_involutive in W. exact W.
Qed.
Print Assumptions C53_join.
Example C53_walk_ex : (* ../x//./y.capnp from /a/b *)
  walk [lit "a"; lit "b"] [lit ".."; lit "x"; []; lit "."; lit "y.capnp"] [lit "a"; lit "x"; lit "y.capnp"].
Proof.
  apply (walk_up [lit "a"]). apply walk_down; [discriminate|discriminate|discriminate|]. apply walk_stay; [auto|]. apply walk_stay; [auto|].
  apply walk_down; [discriminate|discriminate|discriminate|]. apply walk_end.
Qed.
(** the name of the module: the file name up to its last dot *)
Theorem C53_basename : forall d x y, ~ In dot y ->
  modname_of (d ++ [x ++ dot :: y]) = x /\ modname_of (d ++ [y]) = y.
Proof.
  intros d x y N. unfold modname_of, purebasename. rewrite !last_last.
  assert (B : before_dot y = None).
  { induction y as [|c y IH]; [reflexivity|]. cbn [before_dot]. rewrite IH by (intros I; apply N; right; exact I).
    destruct (Z.eqb_spec c dot) as [->|]; [|reflexivity]. exfalso. apply N. left. reflexivity. }
  rewrite B. split; [|reflexivity].
  assert (E : before_dot (x ++ dot :: y) = Some x); [|rewrite E; reflexivity].
  induction x as [|c x IH]; cbn [app before_dot]; [rewrite B, Z.eqb_refl|rewrite IH]; reflexivity.
Qed.
Print Assumptions C53_basename.
(** which sources are good: the text is ASCII, the variables of the imports
    and (pyx mode) the name of the module are identifiers, the imports have no
    quotes, and so has the name of the reflection class *)
Definition word_code (c : Z) : Prop := 65 <= c <= 90 \/ 97 <= c <= 122 \/ 48 <= c <= 57 \/ c = 95.
Definition identifier (s : str) : Prop := (exists c r, s = c :: r /\ ~ 48 <= c <= 57) /\ forall c, In c s -> word_code c.
Lemma ident_char_spec c : ident_char c = true <-> word_code c.
Proof. unfold ident_char, is_alnum, is_upper, is_lower, is_digit, underscore, word_code. lia. Qed.
Lemma ident_spec s : ident s = true <-> identifier s.
Proof.
  unfold ident, identifier. destruct s as [|c s].
  - split; [discriminate|]. intros ((c & r & E & _) & _). discriminate E.
  - rewrite andb_true_iff, negb_true_iff, forallb_forall. split.
    + intros (A & B). split; [|intros d I; apply ident_char_spec, B, I]. exists c, s. split; [reflexivity|]. unfold is_digit in A. lia.
    + intros ((d & r & E & A) & B). injection E as <- <-. split; [unfold is_digit; lia|]. intros d I. apply ident_char_spec, B, I.
Qed.
Theorem C53_sources : forall w f px o src imports, generate w f px o = Ret (src, imports) <->
  w_fs w f = Some src /\ src_capnp src = true /\ src_gen src = true /\
  (forall name, In name f -> ascii_only name) /\
  declare_imports [] (src_imports src) = Ret imports /\
  (forall var name, In (var, name) imports -> identifier var /\ ~ In 34 name /\ ~ In 92 name /\ ~ In 10 name) /\
  (include_reflection_data (options_generic (src_ann src) (default_options o)) <> 0 ->
     forall c, In c (modname_of f) -> word_code c) /\
  (px = true -> identifier (modname_of f ++ lit "_tmp")).
Proof.
  intros w f px o src imps. unfold generate. change (modname_of f ++ lit "_tmp") with (tmpname f).
  assert (PC : forall n, forallb plain_char n = true <-> ~ In 34 n /\ ~ In 92 n /\ ~ In 10 n).
  { intros n. rewrite forallb_forall. unfold plain_char. split.
    - intros H. repeat split; intros I; specialize (H _ I); discriminate H.
    - intros (A & B & C) c I. destruct (Z.eqb_spec c 34) as [->|]; [tauto|]. destruct (Z.eqb_spec c 92) as [->|]; [tauto|].
      destruct (Z.eqb_spec c 10) as [->|]; [tauto|reflexivity]. }
  destruct (w_fs w f) as [s|]; [|split; [discriminate|intros (A & _); discriminate A]].
  assert (F : forallb ascii f = true <-> forall name, In name f -> ascii_only name).
  { rewrite forallb_forall. split; intros H n I; apply ascii_spec; auto. }
  assert (T : forall l, forallb (fun s => ident (fst s) && forallb plain_char (snd s)) l = true <->
     forall var name, In (var, name) l -> identifier var /\ ~ In 34 name /\ ~ In 92 name /\ ~ In 10 name).
  { intros l. rewrite forallb_forall. split.
    - intros H v n I. specialize (H _ I). cbn [fst snd] in H. apply andb_prop in H as [H1 H2]. split; [now apply ident_spec|now apply PC].
    - intros H [v n] I. cbn [fst snd]. destruct (H _ _ I) as [H1 H2]. apply andb_true_intro. split; [now apply ident_spec|now apply PC]. }
  assert (R : forall z, negb (negb (z =? 0)) || forallb ident_char (modname_of f) = true <-> (z <> 0 -> forall c, In c (modname_of f) -> word_code c)).
  { intros z. destruct (Z.eqb_spec z 0) as [->|N]; cbn [negb orb]; [tauto|]. rewrite forallb_forall. split.
    - intros H _ c I. apply ident_char_spec; auto.
    - intros H c I. apply ident_char_spec; auto. }
  assert (P : negb px || ident (tmpname f) = true <-> (px = true -> identifier (tmpname f))).
  { rewrite <- ident_spec. destruct px; cbn [negb orb]; intuition discriminate. }
  split.
  - intros H. destruct (src_capnp s) eqn:E1; [|discriminate H]. cbn [negb] in H.
    destruct (forallb ascii f) eqn:E2; [|discriminate H]. cbn [negb] in H.
    destruct (declare_imports [] (src_imports s)) as [l|] eqn:E3; [|discriminate H].
    destruct (src_gen s) eqn:E4; [|discriminate H]. cbn [negb] in H. cbv zeta in H.
    destruct (_ && _) eqn:E5 in H; [|discriminate H]. injection H as <- <-. apply andb_prop in E5 as [E5 E6]. apply andb_prop in E5 as [E5 E7].
    split; [reflexivity|]. split; [exact E1|]. split; [exact E4|]. split; [now apply F|]. split; [exact E3|].
    split; [now apply T|]. split; [now apply R|now apply P].
  - intros (A & B & C & D & E & G & H & I). injection A as ->. rewrite B, C. cbn [negb]. rewrite (proj2 F D). cbn [negb]. rewrite E.
    cbv zeta. rewrite (proj2 (T _) G), (proj2 (R _) H), (proj2 P I). reflexivity.
Qed.
Print Assumptions C53_sources.
(** the options of a module: those asked for; by default version_check,
    convert_case and include_reflection_data are on (1) and text is bytes (1).
    2 is BoolOption.notset, 0 is TextType.notset. *)
Theorem C53_options : forall o,
  let get notset f := match o with Some x => if f x =? notset then 1 else f x | None => 1 end in
  version_check (default_options o) = get 2 version_check /\ convert_case (default_options o) = get 2 convert_case /\
  text_type (default_options o) = get 0 text_type /\ include_reflection_data (default_options o) = get 2 include_reflection_data.
Proof.
  intros [x|]; cbv zeta; [|repeat split; reflexivity]. unfold default_options, Options.combine, bool_notset, text_notset. cbn [version_check convert_case text_type include_reflection_data DEFAULT_OPTIONS].
  repeat split; destruct (_ =? _); reflexivity.
Qed.
Print Assumptions C53_options.
(** Refuted: schemas that import one another. At any depth of recursion, in
    any mode, a file on a cycle of files that are not loaded yet does not load. *)
Theorem C53_cycle_refuted : forall w f a pyx o fuel, cycle w f f -> get_filename w a = Ret f ->
  forall m w1, load_schema fuel w a pyx o <> (Ret m, w1).
Proof. exact cycle_never. Qed.
Print Assumptions C53_cycle_refuted.

(** a small world: /s/a.capnp imports /b.capnp, /s/b.capnp imports nothing,
    /s/c.capnp and /s/d.capnp import one another, /s/x/foo.capnp imports
    /y/foo.capnp, /s/r.capnp has a relative import *)
Definition plain_src (l : list import_) := mksource true l None true true.
Definition p_ (s : string) : path := join [] (lit s).
Definition fs1 (p : path) : option source :=
  if path_eq_dec p (p_ "s/a.capnp") then Some (plain_src [imp "/b.capnp"])
  else if path_eq_dec p (p_ "s/b.capnp") then Some (plain_src [])
  else if path_eq_dec p (p_ "s/c.capnp") then Some (plain_src [imp "/d.capnp"])
  else if path_eq_dec p (p_ "s/d.capnp") then Some (plain_src [imp "/c.capnp"])
  else if path_eq_dec p (p_ "s/x/foo.capnp") then Some (plain_src [imp "/y/foo.capnp"])
  else if path_eq_dec p (p_ "s/y/foo.capnp") then Some (plain_src [])
  else if path_eq_dec p (p_ "s/r.capnp") then Some (plain_src [imp "b.capnp"])
  else if path_eq_dec p (p_ "s/foo-bar.capnp") then Some (plain_src [])
  else None.
Definition w_start : world :=
  mkworld fs1 (p_ "home") [p_ "s"; []] true [] [] [lit "sys"].
Definition loaded (x : lres nat * world) : lres nat := fst x.
Example C53_ex :
  load_schema 3 w_start (by_modname (lit "a")) PFalse None =
    (Ret 1%nat,
     mkworld fs1 (p_ "home") [p_ "s"; []] true [(p_ "s/b.capnp", 0%nat); (p_ "s/a.capnp", 1%nat)]
       [mkmodl (p_ "s/b.capnp") (plain_src []) false DEFAULT_OPTIONS [];
        mkmodl (p_ "s/a.capnp") (plain_src [imp "/b.capnp"]) false DEFAULT_OPTIONS [(lit "_b_capnp", 0%nat)]]
       [lit "sys"]) /\
  loaded (load_schema 3 (step (snd (load_schema 3 w_start (by_modname (lit "a")) PTrue None)) (OWrite (p_ "s/b.capnp") None))
    (by_filename (lit "../s/./b.capnp")) PAuto None) = Ret 0%nat /\
  loadable w_start (p_ "s/a.capnp") None /\ loadable_pyx w_start [] (p_ "s/a.capnp") None.
Proof.
  assert (B : get_filename w_start (by_importname (lit "/b.capnp")) = Ret (p_ "s/b.capnp")) by reflexivity.
  assert (NI : forall n, ~ imports w_start (p_ "s/b.capnp") n).
  { intros n (src & i & E & I & _). vm_compute in E. injection E as <-. contradiction. }
  assert (IA : forall n, imports w_start (p_ "s/a.capnp") n -> n = lit "/b.capnp").
  { intros n (src & i & E & I & _ & <- & _). assert (src = plain_src [imp "/b.capnp"]) as -> by (vm_compute in E; now injection E as <-).
    destruct I as [<-|[]]. reflexivity. }
  split; [vm_compute; reflexivity|]. split; [vm_compute; reflexivity|]. split.
  - eapply loadable_source; [vm_compute; reflexivity|reflexivity|]. intros n I. rewrite (IA n I). exists (p_ "s/b.capnp").
    split; [exact B|]. eapply loadable_source; [vm_compute; reflexivity|reflexivity|]. intros n' I'. now apply NI in I'.
  - assert (NS : forall n, In 95 n \/ In 46 n -> ~ In n (w_sys w_start)).
    { intros n H [<-|[]]. vm_compute in H. intuition discriminate. }
    eapply loadable_pyx_source; [vm_compute; reflexivity|reflexivity|intros []|apply NS; left; vm_compute; tauto|apply NS; right; vm_compute; tauto|].
    intros n I. rewrite (IA n I). exists (p_ "s/b.capnp").
    split; [exact B|]. eapply loadable_pyx_source; [vm_compute; reflexivity|reflexivity| |apply NS; left; vm_compute; tauto|apply NS; right; vm_compute; tauto|].
    + vm_compute. intuition discriminate.
    + intros n' I'. now apply NI in I'.
Qed.
Example C53_cycle_ex : cycle w_start (p_ "s/c.capnp") (p_ "s/c.capnp").
Proof.
  assert (D : forall f g n, fs1 f = Some (plain_src [imp n]) -> get_filename w_start (by_importname (lit n)) = Ret g ->
    lit n <> lit "/capnp/c++.capnp" -> depends w_start f g).
  { intros f g n E G N. exists (lit n). split; [|exact G]. exists (plain_src [imp n]), (imp n).
    split; [exact E|]. split; [now left|]. split; [discriminate|]. split; [reflexivity|exact N]. }
  eapply cycle_more with (g := p_ "s/d.capnp"); [intros C; now apply C| |].
  - eapply (D _ _ "/d.capnp"%string); [reflexivity|reflexivity|discriminate].
  - apply cycle_one; [intros C; now apply C|]. eapply (D _ _ "/c.capnp"%string); [reflexivity|reflexivity|discriminate].
Qed.
(** Refuted: options and mode of a later load; options for the imports (the
    options given for a.capnp are not those of b.capnp); relative imports; a
    file that imports another one of the same base name, in pyx mode; a module
    of the user called a_tmp, in pyx mode; a file with a dash in its name *)
Definition opts1 : opts := mkopts 1 0 1 1.
Theorem C53_options_refuted :
  let '(r, w1) := load_schema 3 w_start (by_modname (lit "a")) PFalse (Some opts1) in
  r = Ret 1%nat /\
  option_map m_opts (nth_error (w_heap w1) 1) = Some opts1 /\
  option_map m_opts (nth_error (w_heap w1) 0) = Some DEFAULT_OPTIONS /\
  load_schema 3 w1 (by_modname (lit "b")) PTrue (Some opts1) = (Ret 0%nat, w1).
Proof. vm_compute. repeat split. Qed.
Print Assumptions C53_options_refuted.
Theorem C53_names_refuted :
  (* an import that does not start with a slash *)
  loaded (load_schema 3 w_start (by_modname (lit "r")) PFalse None) = Raise LValue /\
  loaded (load_schema 3 w_start (by_modname (lit "r")) PTrue None) = Raise LValue /\
  (* a file that imports another one of the same base name *)
  loaded (load_schema 3 w_start (by_modname (lit "x.foo")) PFalse None) = Ret 1%nat /\
  loaded (load_schema 3 w_start (by_modname (lit "x.foo")) PTrue None) = Raise LKey /\
  (* a dash in the file name *)
  loaded (load_schema 3 w_start (by_modname (lit "foo-bar")) PFalse None) = Raise LSyntax /\
  (* a module of the user called b_tmp is removed from sys.modules *)
  w_sys (snd (load_schema 3 (set_sys w_start [lit "b_tmp"; lit "sys"]) (by_modname (lit "b")) PTrue None)) = [lit "sys"].
Proof. vm_compute. repeat split. Qed.
Print Assumptions C53_names_refuted.

(** C54. DistutilsCompiler.compile, after any history of edits of the schema
    and of compilations of it, with the clock going forward: what is in the
    output file is what the generator gives for the current schema. *)
Theorem C54_current : forall gen op s0 l px s,
  d_py s0 = None -> d_pyx s0 = None -> snd (d_in s0) <= d_now s0 ->
  Forall (plain op) l -> compile gen (drun gen s0 l) px (op px) = (Ok tt, s) ->
  up_to_date gen s px (op px).
Proof. exact compile_current. Qed.
Print Assumptions C54_current.
(** It is not written again, and the other output and the schema are not
    touched. *)
Theorem C54_again : forall gen s px o s1 d,
  compile gen s px o = (Ok tt, s1) -> 0 < d -> snd (d_in s) <= d_now s ->
  forall s2, s2 = dstep gen s1 (DTick d) ->
  (snd (d_in s) < d_now s -> forall o', compile gen s2 px o' = (Ok tt, s2)) /\
  (forall px', px' <> px -> d_out s1 px' = d_out s px') /\ d_in s1 = d_in s.
Proof. exact compile_again. Qed.
Print Assumptions C54_again.

(** a generator: the text has the schema, the environment, the mode, the
    options and the time in it; it fails on the schema [13] *)
Definition gen1 : generator := fun c e px o t =>
  if list_eq_dec Z.eq_dec c [13] then None
  else Some (c ++ [e; if px then 1 else 0; match o with Some x => version_check x | None => 7 end; t]).
Definition start1 : dstate := mkd 10 5 ([65], 3) None None.
Definition none1 (px : bool) : option opts := None.
Example C54_ex : Forall (plain none1) [DCompile false None; DTick 1; DEdit [66]; DTick 2; DCompile false None; DTick 4] /\
  compile gen1 (drun gen1 start1 [DCompile false None; DTick 1; DEdit [66]; DTick 2; DCompile false None; DTick 4]) false None =
    (Ok tt, mkd 17 5 ([66], 11) (Some ([66; 5; 0; 7; 13], 13)) None).
Proof. split; [repeat constructor; cbn; lia|reflexivity]. Qed.
Definition out_after (l : list dop) (px : bool) (o : option opts) : res unit * option str :=
  let '(r, s) := compile gen1 (drun gen1 start1 l) px o in
  (r, option_map fst (d_out s px)).
(** Refuted for the other histories, each time by a compile() which
    succeeds and leaves a wrong output: *)
Definition opts_nocheck : opts := mkopts 0 1 1 1.
Theorem C54_stale_refuted :
  (* compiled with other options *)
  out_after [DCompile false None] false (Some opts_nocheck) = (Ok tt, Some [65; 5; 0; 7; 10]) /\
  (* an imported schema has been edited *)
  out_after [DCompile false None; DTick 1; DEnv 6; DTick 1] false None = (Ok tt, Some [65; 5; 0; 7; 10]) /\
  (* another version of the schema, with its old mtime, has been put in place *)
  out_after [DCompile false None; DTick 1; DRestore [66] 4; DTick 1] false None = (Ok tt, Some [65; 5; 0; 7; 10]) /\
  (* the clock was set back before the edit *)
  out_after [DCompile false None; DTick (-5); DEdit [66]; DTick 1] false None = (Ok tt, Some [65; 5; 0; 7; 10]) /\
  (* a compilation was interrupted while it wrote its output *)
  out_after [DCrash false None 2; DTick 1] false None = (Ok tt, Some [65; 5]).
Proof. vm_compute. repeat split. Qed.
Print Assumptions C54_stale_refuted.
(** A schema that is edited within the granularity of the mtimes is compiled
    again (the test is strict), and a schema that does not compile leaves the
    old output where it is, but compile raises. *)
Theorem C54_failure : forall gen s px o e s', compile gen s px o = (Err e, s') ->
  s' = s /\ gen (fst (d_in s)) (d_env s) px o (d_now s) = None.
Proof. exact compile_failure. Qed.
Print Assumptions C54_failure.
Example C54_failure_ex :
  compile gen1 (drun gen1 start1 [DCompile false None; DTick 1; DEdit [13]]) false None =
  (Err ValueError, mkd 11 5 ([13], 11) (Some ([65; 5; 0; 7; 10], 10)) None).
Proof. reflexivity. Qed.
Example C54_edge_ex :
  out_after [DCompile false None; DEdit [66]] false None = (Ok tt, Some [66; 5; 0; 7; 10]).
Proof. reflexivity. Qed.
