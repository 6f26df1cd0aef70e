(** The text of whole modules, compared word for word with the two modules of
    /repo that the compiler has generated for itself: capnpy/schema.py and
    capnpy/annotate.py.  The last line that the compiler writes is an empty one:
    neither file ends with a newline. *)
From Coq Require Import Strings.String.
From Verif Require LoaderFacts2.
From Verif Require Import Base Case Loader PySyntax PyRun PyModule PyModuleRun Ctor GenRun GenText ClassText TextSpec ClassSpec SchemaText SchemaRepr ModuleText ModuleSpec ReprText ReprTextSamples TextSamples ModuleSamples SchemaModule.
From Coq Require Import Lists.List.
Local Open Scope string_scope.
Local Open Scope list_scope.
Local Open Scope Z_scope.

Definition names_of (t : list (string * table)) (c : str) : string -> string -> names :=
  match find (fun p => str_eqb (lit (fst p)) c) t with Some (_, t) => names_in t | None => fun _ _ => mknames [] [] [] [] [] end.
Lemma schema_module : same_text (module_text floats (names_of schema_classes) schema_header schema_nodes) (map lit schema_py ++ [[]]) = true.
Proof. vm_compute. reflexivity. Qed.
Lemma annotate_module : same_text (module_text floats (names_of annotate_classes) annotate_header annotate_nodes) (map lit annotate_py ++ [[]]) = true.
Proof. vm_compute. reflexivity. Qed.

(** ** The names in them are told apart, as C85 asks *)
Definition nodup (l : list str) : bool := (fix go l := match l with [] => true | x :: r => negb (existsb (str_eqb x) r) && go r end) l.
Definition apartb (a b : list str) : bool := forallb (fun x => negb (existsb (str_eqb x) b)) a.
Definition node_namedb (n : mnode) : bool :=
  match n with
  | NStruct s ch => nodup (struct_names s ch) && nodup (enum_names (sd_items s)) &&
      apartb (fixed_names ++ flat_map nested_names ch) (tag_name s :: flat_map module_name ch)
  | NEnum _ _ _ items => nodup (enum_names items)
  | _ => true
  end.
Definition namedb (nodes : list mnode) : bool :=
  nodup (header_used ++ top_names nodes ++ flat_map module_names (all_nodes nodes)) && forallb node_namedb (all_nodes nodes).
Lemma nodup_ok l : nodup l = true -> NoDup l.
Proof.
  induction l as [|x l IH]; intros H; constructor.
  - intros I. cbn in H. apply andb_prop in H. destruct H as (H & _). assert (X : existsb (str_eqb x) l = true) by (apply existsb_exists; exists x; split; [exact I|apply LoaderFacts2.str_eqb_refl]). rewrite X in H. discriminate H.
  - apply IH. cbn in H. apply andb_prop in H. apply H.
Qed.
Lemma named_ok nodes : namedb nodes = true -> named nodes.
Proof.
  intros H. apply andb_prop in H. destruct H as (A & B). split; [apply nodup_ok, A|]. intros n I. rewrite forallb_forall in B. specialize (B n I).
  destruct n as [s ch|short n id items|n v|n id ts]; cbn [node_named node_namedb] in *; try exact Logic.I.
  - apply andb_prop in B. destruct B as (B & C). apply andb_prop in B. destruct B as (B1 & B2). split; [apply nodup_ok, B1|]. split; [apply nodup_ok, B2|]. now apply apart_check.
  - apply nodup_ok, B.
Qed.
Lemma schema_named : named schema_nodes.
Proof. apply named_ok. vm_compute. reflexivity. Qed.
Lemma annotate_named : named annotate_nodes.
Proof. apply named_ok. vm_compute. reflexivity. Qed.

(** ** The text of the two files, read and run by computation: what has been made
    of every node *)
Definition attr_is (st : mst) (k : pycls) (a : string) (p : mval -> bool) : bool := match attr k (lit a) with Some v => p v | None => false end.
Definition is_int (x : Z) (v : mval) : bool := match v with VInt y => x =? y | _ => false end.
Definition is_str (x : str) (v : mval) : bool := match v with VStr y => str_eqb x y | _ => false end.
Definition is_item (kind : string) (i : nat) (v : mval) : bool := match v with VItem k j => str_eqb k (lit kind) && Nat.eqb i j | _ => false end.
Definition is_fun (v : mval) : bool := match v with VFun _ _ _ => true | _ => false end.
Definition global (st : mst) (n : str) : option (nat * pycls) :=
  match get (m_globals st) n with Some (VCls i) => match nth_error (m_heap st) i with Some k => Some (i, k) | None => None end | _ => None end.
Definition members_are (k : pycls) (i : nat) (items : list str) : bool :=
  forallb (fun p => match attr k (snd p) with Some (VInst j x) => Nat.eqb i j && (x =? Z.of_nat (fst p)) | _ => false end) (combine (seq 0 (List.length items)) items).
Definition stands (st : mst) (n : mnode) : bool :=
  match n with
  | NStruct s ch =>
      match global st (sd_name s) with
      | Some (i, k) =>
          attr_is st k "__name__" (is_str (sd_dotname s)) && attr_is st k "__capnpy_id__" (is_int (sd_id s)) &&
          attr_is st k "__static_data_size__" (is_int (sn_ds (sd_sn s))) && attr_is st k "__static_ptrs_size__" (is_int (sn_ps (sd_sn s))) &&
          forallb (fun m => match attr k m with Some v => is_fun v | None => false end) (class_methods (sd_group s) (sd_sn s)) &&
          attr_is st k "shortrepr" is_fun &&
          match get (m_globals st) (item_name (sd_name s)) with Some v => is_item "StructItemType" i v | None => false end &&
          match sn_utag (sd_sn s) with
          | Some u => attr_is st k "__tag_offset__" (is_int (u * 2)) &&
              match global st (tag_name s) with Some (j, t) => attr_is st k "__tag__" (fun v => match v with VCls x => Nat.eqb x j | _ => false end) && members_are t j (sd_items s) | None => false end
          | None => true
          end
      | None => false
      end
  | NEnum _ n id items =>
      match global st n with
      | Some (i, k) => attr_is st k "__capnpy_id__" (is_int id) && members_are k i items &&
          match get (m_globals st) (item_name n) with Some v => is_item "EnumItemType" i v | None => false end
      | None => false
      end
  | NAnn n id _ => match global st n with Some (_, k) => attr_is st k "__capnpy_id__" (is_int id) | None => false end
  | NConst _ _ => true
  end.
Lemma schema_stands : match state_of (map lit schema_py) with Some st => forallb (stands st) (all_nodes schema_nodes) = true | None => False end.
Proof. vm_compute. reflexivity. Qed.
Lemma annotate_stands : match state_of (map lit annotate_py) with Some st => forallb (stands st) (all_nodes annotate_nodes) = true | None => False end.
Proof. vm_compute. reflexivity. Qed.

(** ** annotate.py is a case of C85: what the compiler has checked holds of its
    nodes, and the theorem says what is in the module after it has run *)
Definition annotate_world : world :=
  mkworld 4 (fun _ => []) (fun _ => None)
    (fun n => if existsb (str_eqb n) (map lit ["Options"; "BoolOption"; "TextType"]) then Some (XCls n) else None) (fun _ _ => None) (fun _ => 0).
Lemma annotate_means c : In c ["Options"; "BoolOption"; "TextType"] -> means_class annotate_world (lit c) (lit c) /\ TextSpec.keeps annotate_world (lit c).
Proof.
  intros I. split.
  - exists (xVar (lit c)). cbn [In] in I. decompose [or] I; try contradiction; subst c; (split; [apply ct_name; [split; reflexivity|reflexivity|discriminate]|intros [|dp] st; reflexivity]).
  - intros n J. reflexivity.
Qed.
Lemma annotate_slot f : In f (sn_fields t_Options_node) ->
  exists n o off d c, f = FSlot n o None TEnum off true d /\ py_name (lit n) /\ upper_or_underscore (lit n) = false /\ n <> "self" /\
  GenText.n_enum (names_of annotate_classes (lit "Options") "" n) = lit c /\ In c ["Options"; "BoolOption"; "TextType"].
Proof.
  intros I. cbn [t_Options_node sn_fields In] in I. decompose [or] I; try contradiction; subst f;
    (eexists _, _, _, _, _; split; [reflexivity|]; split; [split; reflexivity|]; split; [reflexivity|]; split; [discriminate|]; split; [|]).
  all: [> exact (eq_refl (lit "BoolOption"))|cbn; tauto|exact (eq_refl (lit "BoolOption"))|cbn; tauto|exact (eq_refl (lit "TextType"))|cbn; tauto|exact (eq_refl (lit "BoolOption"))|cbn; tauto].
Qed.
Lemma annotate_refers f : In f (sn_fields t_Options_node) ->
  match f with FSlot n _ _ t _ _ d => py_name (lit n) /\ refers annotate_world floats (names_of annotate_classes (lit "Options") "" n) t d (lit "Options") | FGroup _ _ _ _ _ _ => False end.
Proof.
  intros I. destruct (annotate_slot f I) as (n & o & off & d & c & -> & P & _ & _ & E & J). split; [exact P|]. cbn [refers]. exists (lit c). rewrite E. exact (annotate_means c J).
Qed.
Lemma options_described : class_described annotate_world floats (names_of annotate_classes (lit "Options")) (lit "Options") (lit "Options") false t_Options_node.
Proof.
  apply mkcd.
  - apply (annotate_means "Options"). cbn. tauto.
  - intros f I. exists (lit "Options"). pose proof (annotate_refers f I) as R. destruct (annotate_slot f I) as (n & o & off & d & c & -> & _). exact R.
  - intros _. apply mknode.
    + intros f I V. pose proof (annotate_refers f I) as R. destruct (annotate_slot f I) as (n & o & off & d & c & -> & P & U & _). destruct R as (_ & R).
      split; [exact P|]. split; [exact U|]. split; [discriminate|]. split; [exists (lit "Options"); exact R|discriminate].
    + repeat (apply NoDup_cons; [cbn; intuition discriminate|]); apply NoDup_nil.
    + intros f I V. destruct (annotate_slot f I) as (n & o & off & d & c & -> & P & U & S & _). split; [exact S|]. discriminate.
  - split; [|reflexivity]. split; [apply NoDup_nil|]. intros f d I. destruct I.
Qed.
Lemma annotate_readable : readable annotate_world floats (names_of annotate_classes) mval_of annotate_header annotate_nodes.
Proof.
  split; [split; [unfold annotate_header, h_id; lia|]; split; [apply plain_check; vm_compute; reflexivity|]; split; [apply plain_check; vm_compute; reflexivity|exact Logic.I]|].
  intros n I. change (all_nodes annotate_nodes) with annotate_nodes in I. unfold annotate_nodes in I. cbn [In] in I. decompose [or] I; try contradiction; subst n.
  4,5: split; [split; reflexivity|]; split; [split; reflexivity|]; split; [discriminate|apply plains_check; vm_compute; reflexivity].
  4: { split; [split; reflexivity|]. split; [split; reflexivity|]. split; [apply plain_check; vm_compute; reflexivity|]. split; [vm_compute; split; [discriminate|reflexivity]|].
       split; [exists (lit "Options"); exact options_described|]. split; [apply shown_check; vm_compute; reflexivity|exact Logic.I]. }
  all: split; [split; reflexivity|]; vm_compute; split; [discriminate|reflexivity].
Qed.
