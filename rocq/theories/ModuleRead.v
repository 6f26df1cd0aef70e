(** The text of a module, read: what its statements are. *)
From Coq Require Import Strings.String.
From Verif Require FloatBits.
From Verif Require Import Base BaseFacts Spec CopyList Case CaseFacts Loader Repr ReprSpec ReprParse PyExpr Ctor PySyntax PySyntaxFacts PyPrint
  PyRun GenRun TextSpec ClassSpec GenText GenTextFacts ClassText ReprText ReprTextFacts KeyText Properties_KeyText PyModule PyModuleFacts ModuleText ModuleTextFacts.
From Coq Require Import Lists.List.
Local Notation length := Datatypes.length.
Local Open Scope string_scope.
Local Open Scope list_scope.
Local Open Scope Z_scope.

(** ** The tree, children first *)
Fixpoint post (n : mnode) : list mnode :=
  match n with
  | NStruct s ch => (fix go l := match l with [] => [] | c :: r => post c ++ go r end) ch ++ [n]
  | _ => [n]
  end.
Definition nodes_of (l : list mnode) : list mnode := flat_map post l.
Lemma mnode_ind2 (P : mnode -> Prop) : (forall s ch, Forall P ch -> P (NStruct s ch)) -> (forall a b c d, P (NEnum a b c d)) ->
  (forall a b, P (NConst a b)) -> (forall a b c, P (NAnn a b c)) -> forall n, P n.
Proof.
  intros Hs He Hc Ha. fix F 1. intros [s ch|a b c d|a b|a b c]; [|apply He|apply Hc|apply Ha]. apply Hs.
  induction ch as [|c ch IH]; [constructor|]. constructor; [apply F|exact IH].
Qed.
Definition own_decl (n : mnode) : list str :=
  match n with NStruct s _ => struct_decl_text s | NEnum _ name id items => enum_decl_text name id items | NConst _ _ => [] | NAnn name id t => ann_text name id t end.
Definition own_def (fl : Z -> str) (nm : str -> string -> string -> names) (n : mnode) : list str :=
  match n with NStruct s ch => struct_def_text fl nm s ch | _ => [] end.
Lemma flat_map_one {A B} (f : A -> list B) x : flat_map f [x] = f x.
Proof. cbn. apply app_nil_r. Qed.
Lemma decl_post n : decl_text n = flat_map own_decl (post n).
Proof.
  induction n as [s ch IH|a b c d|a b|a b c] using mnode_ind2; try (cbn [post]; now rewrite flat_map_one).
  cbn [post decl_text]. rewrite flat_map_app, flat_map_one. f_equal. induction IH as [|c ch E F IH]; [reflexivity|]. rewrite flat_map_app, <- E, IH. reflexivity.
Qed.
Lemma def_post fl nm n : def_text fl nm n = flat_map (own_def fl nm) (post n).
Proof.
  induction n as [s ch IH|a b c d|a b|a b c] using mnode_ind2; try (cbn [post]; now rewrite flat_map_one).
  cbn [post def_text]. rewrite flat_map_app, flat_map_one. f_equal. induction IH as [|c ch E F IH]; [reflexivity|]. rewrite flat_map_app, <- E, IH. reflexivity.
Qed.
Lemma flat_flat {A B C} (f : B -> list C) (g : A -> list B) l : flat_map (fun x => flat_map f (g x)) l = flat_map f (flat_map g l).
Proof. induction l as [|x l IH]; [reflexivity|]. cbn [flat_map]. rewrite flat_map_app, IH. reflexivity. Qed.
Lemma decls_post l : flat_map decl_text l = flat_map own_decl (nodes_of l).
Proof. unfold nodes_of. rewrite <- flat_flat. apply flat_map_ext. apply decl_post. Qed.
Lemma defs_post fl nm l : flat_map (def_text fl nm) l = flat_map (own_def fl nm) (nodes_of l).
Proof. unfold nodes_of. rewrite <- flat_flat. apply flat_map_ext. intros n. apply def_post. Qed.

(** ** The header *)
Definition import_of (line : string) : mstmt :=
  match option_map (fun ts => p_item 20 ts []) (lex (lit line)) with Some (Some (q, _)) => q | _ => mStmt qPass end.
Definition import_asts : list mstmt := map import_of import_lines.
Definition read_line (line : string) : bool :=
  match lex (lit line) with
  | Some (t :: ts) => (opened (t :: ts) =? 0) && match indent (lit line) with O => true | _ => false end && is_word "from" t &&
      match p_import 20 ts with Some q => true | None => false end
  | _ => false
  end.
Lemma import_block line : read_line line = true -> mblock [lit line] [import_of line].
Proof.
  unfold read_line, import_of. destruct (lex (lit line)) as [[|t ts]|] eqn:L; try discriminate. intros H.
  apply andb_prop in H. destruct H as (H & I). apply andb_prop in H. destruct H as (H & W). apply andb_prop in H. destruct H as (O1 & D).
  destruct (indent (lit line)) eqn:Di; [|discriminate D]. destruct (p_import 20 ts) as [q|] eqn:Q; [|discriminate I].
  assert (P : forall r, p_item 20 (t :: ts) r = Some (q, r)).
  { intros r. destruct t as [n| | | | | |o]; try discriminate W; cbn [is_word] in W; unfold p_item; cbn [after_op is_op after_word is_word].
    - apply str_eqb_spec in W. subst n. change (str_eqb (lit "from") (lit "class")) with false. change (str_eqb (lit "from") (lit "from")) with true. cbn iota. rewrite Q. reflexivity. }
  cbn [option_map]. rewrite (P []). apply (mb_line (lit line) t ts q 20); [exact L|exact Di|lia|exact P].
Qed.
Lemma imports_block ls : forallb read_line ls = true -> mblock (map lit ls) (map import_of ls).
Proof.
  induction ls as [|l ls IH]; intros H; [apply mb_nil|]. cbn [forallb] in H. apply andb_prop in H. destruct H as (A & B).
  apply (mb_app [_] _ [_] _); [now apply import_block|now apply IH].
Qed.
Definition const_ast (cls : string) (c : seg_const) : pexp :=
  match c with (b, off, ds, ps) => xApp (xDot (xVar (lit cls)) (lit "from_buffer")) [xApp (xVar (lit "_Segment")) [xByt b] []; num off; num ds; num ps] [] end.
Lemma sh_byt b : sh (xByt b) = lit "b" ++ Repr.bytes_repr b.
Proof. unfold sh. cbn [pcs flat flat_map spell]. rewrite app_nil_r. reflexivity. Qed.
Lemma const_ast_sh cls c : sh (const_ast cls c) = const_text (lit cls) c.
Proof.
  destruct c as (((b, off), ds), ps). unfold const_ast, const_text. rewrite sh_app, sh_dot, sh_var. cbn [map app join_with].
  rewrite !sh_numz, sh_app, sh_var. cbn [map app join_with]. rewrite sh_byt. rewrite <- !app_assoc. reflexivity.
Qed.
Lemma const_ast_wfx cls c : name (lit cls) -> wfx (const_ast cls c).
Proof.
  intros N. destruct c as (((b, off), ds), ps). unfold const_ast. cbn [wfx]. repeat split; try apply N; try apply wf_num; reflexivity.
Qed.
Definition reflection_name (modname : str) : str := lit "_" ++ modname ++ lit "_ReflectionData".
Definition reflection_ast (r : option (str * seg_const * seg_const)) : list mstmt :=
  match r with
  | None => []
  | Some (modname, request, options) =>
      map import_of ["from capnpy.schema import CodeGeneratorRequest as _CodeGeneratorRequest"; "from capnpy.annotate import Options as _Options";
        "from capnpy.reflection import ReflectionData as _ReflectionData"] ++
      [mClass [] (reflection_name modname) (lit "_ReflectionData")
         [set "request" (const_ast "_CodeGeneratorRequest" request); set "default_options" (const_ast "_Options" options); set "pyx" (xConst CFalse)];
       mStmt (set "_reflection_data" (xApp (xVar (reflection_name modname)) [] []))]
  end.
Definition header_ast (h : header) : list mstmt :=
  import_asts ++
  [mStmt (set "__capnpy_id__" (xNum (h_id h))); mStmt (set "__capnpy_version__" (xStr (h_version h))); mStmt (set "__capnproto_version__" (xStr (h_capnproto h)))] ++
  (if h_check h then [mStmt (qExpr (xApp (xVar (lit "_check_version")) [xVar (lit "__name__"); xVar (lit "__capnpy_version__")] []))] else []) ++
  reflection_ast (h_reflection h).
Definition header_ok (h : header) : Prop :=
  0 <= h_id h < 2 ^ 64 /\ PySyntaxFacts.plain (h_version h) /\ PySyntaxFacts.plain (h_capnproto h) /\
  match h_reflection h with Some (modname, _, _) => ident modname = true | None => True end.
Lemma reflection_name_ok m : ident m = true -> name (reflection_name m).
Proof.
  intros I. unfold reflection_name. split; [apply ident_prefix; [reflexivity|]|apply keyword_underscore; now left].
  rewrite forallb_app. apply andb_true_intro. split; [now apply ident_chars|reflexivity].
Qed.
Lemma header_block h : header_ok h -> mblock (header_text h) (header_ast h).
Proof.
  intros (I & V & C & R). unfold header_text, header_ast. apply (mb_app [_; _; _; _; _] _ [] _).
  { apply (mb_app [_] _ [] []); [apply (mb_comment (lit " THIS FILE HAS BEEN GENERATED AUTOMATICALLY BY capnpy"))|].
    apply (mb_app [_] _ [] []); [apply (mb_comment (lit " do not edit by hand"))|]. apply (mb_app [_] _ [] []); [apply (mb_comment (lit " generated on " ++ h_date h))|].
    apply (mb_app [_] _ [] []); [apply (mb_comment (lit " cython: language_level=2"))|exact (mb_blank 0)]. }
  refine (mb_app (map lit import_lines) _ import_asts _ _ _); [apply imports_block; vm_compute; reflexivity|].
  rewrite <- (app_nil_r (reflection_ast _)). change [lit "__capnpy_id__ = " ++ hex_text (h_id h); lit "__capnpy_version__ = " ++ quoted (h_version h);
    lit "__capnproto_version__ = " ++ quoted (h_capnproto h); if h_check h then lit "_check_version(__name__, __capnpy_version__)" else lit "# schema compiled with --no-version-check, skipping the call to _check_version"]
  with ([lit "__capnpy_id__ = " ++ hex_text (h_id h); lit "__capnpy_version__ = " ++ quoted (h_version h); lit "__capnproto_version__ = " ++ quoted (h_capnproto h)] ++
    [if h_check h then lit "_check_version(__name__, __capnpy_version__)" else lit "# schema compiled with --no-version-check, skipping the call to _check_version"]).
  rewrite <- app_assoc. apply mb_app; [|apply mb_app; [|apply mb_app]].
  - apply (mb_app [_] _ [_] [_; _]); [exact (mb_hex (lit "__capnpy_id__") (h_id h) ltac:(split; reflexivity) I)|].
    rewrite <- !sh_str. apply (mb_app [_] [_] [_] [_]).
    + exact (mb_set (lit "__capnpy_version__") (xStr (h_version h)) ltac:(split; reflexivity) V).
    + exact (mb_set (lit "__capnproto_version__") (xStr (h_capnproto h)) ltac:(split; reflexivity) C).
  - destruct (h_check h).
    + replace (lit "_check_version(__name__, __capnpy_version__)") with (sh (xApp (xVar (lit "_check_version")) [xVar (lit "__name__"); xVar (lit "__capnpy_version__")] [])) by reflexivity.
      apply mb_call; [split; reflexivity|wf].
    + apply (mb_comment (lit " schema compiled with --no-version-check, skipping the call to _check_version")).
  - destruct (h_reflection h) as [[[m req] opt]|]; [|apply (mb_comment (lit " not including reflection data"))]. unfold reflection_ast.
    apply (mb_app [_; _; _] (_ :: _ :: _ :: _ :: [_])); [apply (imports_block ["from capnpy.schema import CodeGeneratorRequest as _CodeGeneratorRequest"; "from capnpy.annotate import Options as _Options";
        "from capnpy.reflection import ReflectionData as _ReflectionData"]); vm_compute; reflexivity|].
    apply (mb_app (_ :: _ :: _ :: [_]) [_] [_] [_]).
    + replace (lit "class _" ++ m ++ lit "_ReflectionData(_ReflectionData):") with (class_head (reflection_name m) (lit "_ReflectionData")).
      2:{ unfold class_head, reflection_name. rewrite <- !app_assoc. reflexivity. }
      apply (mb_class [] _ _ 4); [constructor|now apply reflection_name_ok|split; reflexivity|lia|discriminate|].
      apply (blk_cons 4 _ _ [_] [_; _]); [apply set_block; [split; reflexivity|apply const_ast_wfx; split; reflexivity|now rewrite const_ast_sh]|].
      apply (blk_cons 4 _ _ [_] [_]); [apply set_block; [split; reflexivity|apply const_ast_wfx; split; reflexivity|now rewrite const_ast_sh]|].
      apply set_block; [split; reflexivity|exact Logic.I|reflexivity].
    + replace (lit "_reflection_data = _" ++ m ++ lit "_ReflectionData()") with (lit "_reflection_data" ++ lit " = " ++ sh (xApp (xVar (reflection_name m)) [] [])).
      2:{ rewrite sh_app, sh_var. unfold reflection_name. cbn [map app join_with]. rewrite <- !app_assoc. reflexivity. }
      apply mb_set; [split; reflexivity|]. cbn [wfx]. split; [now apply reflection_name_ok|]. split; [reflexivity|]. split; [exact Logic.I|]. split; [exact Logic.I|reflexivity].
  - exact (mb_blank 0).
Qed.

(** ** The whole module *)
Section module.
  Context (fl : Z -> str) (nm : str -> string -> string -> names) (val : str -> pexp).
  Definition decl_ast (n : mnode) : list mstmt :=
    match n with
    | NStruct s _ => struct_decl_ast s
    | NEnum _ n id items => enum_ast n (Some id) items ++ [item_ast (lit "EnumItemType") n]
    | NConst _ _ => []
    | NAnn n id ts => [mClass [] n (lit "object") (ann_body id ts)]
    end.
  (* a node, and the methods that the text of its class is read as *)
  Definition def_ast (p : mnode * list pstmt) : list mstmt := match fst p with NStruct s ch => struct_def_ast val s ch (snd p) | _ => [] end.
  Definition end_ast (h : header) : mstmt :=
    mStmt (qExpr (xApp (xVar (lit "_extend_module_maybe")) [xApp (xVar (lit "globals")) [] []]
      [if h_standalone h then (lit "modname", xVar (lit "__name__")) else (lit "filename", xVar (lit "__schema__"))])).
  Definition module_ast (h : header) (nodes : list mnode) (bs : list (mnode * list pstmt)) : list mstmt :=
    header_ast h ++ flat_map decl_ast (nodes_of nodes) ++ flat_map def_ast bs ++
    map (fun p => mStmt (assign p)) (flat_map (ref_ast val false) nodes) ++ [end_ast h].

  Definition node_ok (n : mnode) : Prop :=
    match n with
    | NStruct s ch =>
        name (sd_name s) /\ PySyntaxFacts.plain (sd_dotname s) /\ 0 <= sd_id s < 2 ^ 64 /\ Forall PySyntaxFacts.plain (sd_items s) /\
        (forall c, In c ch -> ref_ok val true c) /\ Forall shown_field (sd_fields s) /\ key_ok s
    | NEnum _ n id items => name n /\ items <> [] /\ Forall PySyntaxFacts.plain items
    | NConst _ _ => True
    | NAnn n id ts => name n /\ 0 <= id < 2 ^ 64
    end.
  Definition body_ok (p : mnode * list pstmt) : Prop :=
    match fst p with NStruct s _ => block 4 (class_text fl (nm (sd_name s)) 4 (sd_name s) (sd_group s) (sd_sn s)) (snd p) | _ => True end.
  Lemma flat_map_map {A B C} (f : B -> list C) (g : A -> B) l : flat_map f (map g l) = flat_map (fun x => f (g x)) l.
  Proof. induction l as [|x l IH]; [reflexivity|]. cbn. now rewrite IH. Qed.
  Lemma module_block h nodes bs : header_ok h -> map fst bs = nodes_of nodes -> Forall body_ok bs -> (forall n, In n (nodes_of nodes) -> node_ok n) -> (forall n, In n nodes -> ref_ok val false n) ->
    mblock (module_text fl nm h nodes) (module_ast h nodes bs).
  Proof.
    intros H Eb Fb N R. unfold module_text, module_ast. apply mb_app; [now apply header_block|].
    apply (mb_app _ _ [] _).
    { apply (mb_app [_] [_] [] []); [apply (mb_comment (lit "### FORWARD DECLARATIONS ####"))|exact (mb_blank 0)]. }
    rewrite decls_post, defs_post. apply mb_app.
    { apply mb_flat. intros n I. specialize (N n I). destruct n as [s ch|sh' n id items|n v|n id ts]; cbn [own_decl decl_ast node_ok] in *.
      - destruct N as (A & B & _ & D & _). now apply struct_decl_block.
      - destruct N as (A & B & C). now apply enum_decl_block.
      - apply mb_nil.
      - destruct N as (A & B). now apply ann_block. }
    apply (mb_app [_] _ [] _); [exact (mb_blank 0)|]. apply (mb_app _ _ [] _).
    { apply (mb_app [_] [_] [] []); [apply (mb_comment (lit "### DEFINITIONS ####"))|exact (mb_blank 0)]. }
    apply mb_app.
    { rewrite <- Eb, flat_map_map. apply mb_flat. intros [n b] I. rewrite Forall_forall in Fb. specialize (Fb _ I).
      specialize (N n ltac:(rewrite <- Eb; apply in_map_iff; exists (n, b); split; [reflexivity|exact I])).
      unfold def_ast, body_ok in *. cbn [fst snd] in *. destruct n as [s ch|sh' n id items|n v|n id ts]; cbn [own_def node_ok] in *; try apply mb_nil.
      destruct N as (A & B & C & D & E & F & G). now apply struct_def_block. }
    destruct (refs_ok val false nodes R) as (E & F). rewrite E. apply mb_app; [now apply refs_module|].
    apply (mb_app [_] [_; _] [] [_]); [exact (mb_blank 0)|]. apply (mb_app [_] [_] [_] []); [|exact (mb_blank 0)].
    unfold end_ast. set (kw := if h_standalone h then (lit "modname", xVar (lit "__name__")) else (lit "filename", xVar (lit "__schema__"))).
    replace (lit "_extend_module_maybe(globals(), " ++ lit (if h_standalone h then "modname=__name__)" else "filename=__schema__)"))
      with (sh (xApp (xVar (lit "_extend_module_maybe")) [xApp (xVar (lit "globals")) [] []] [kw])) by (unfold kw; destruct (h_standalone h); reflexivity).
    apply mb_call; [split; reflexivity|]. unfold kw. destruct (h_standalone h); cbn [wfx]; repeat split; reflexivity.
  Qed.
End module.
