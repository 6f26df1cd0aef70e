(** The parts of the text of a module, read. *)
From Coq Require Import Strings.String.
From Verif Require FloatBits.
From Verif Require Import Base BaseFacts Spec CopyList Case CaseFacts Loader Repr ReprSpec ReprParse PyExpr Ctor PySyntax PySyntaxFacts PyPrint
  PyRun GenRun TextSpec ClassSpec GenText GenTextFacts GenTextRun GenNew GenNew2 GenNew3 GenNew4 GenNew5 GenGet GenGet2 Properties_Text Properties_TextNew
  ClassText ClassFacts Properties_ClassText ReprText ReprTextFacts KeyText Properties_KeyText PyModule PyModuleFacts ModuleText.
From Coq Require Import Lists.List Permutation.
Local Notation length := Datatypes.length.
Local Open Scope string_scope.
Local Open Scope list_scope.
Local Open Scope Z_scope.

(** ** Hexadecimal numbers *)
Lemma hex_number_snoc a c : hex_number (a ++ [c]) = hex_number a * 16 + (if digit c then c - 48 else c - 87).
Proof. unfold hex_number. now rewrite fold_left_app. Qed.
Lemma hex_char_ok d : 0 <= d < 16 -> hex_digit (hex_char d) = true /\ (if digit (hex_char d) then hex_char d - 48 else hex_char d - 87) = d.
Proof.
  intros H. unfold hex_char, hex_digit, digit. destruct (d <? 10) eqn:E.
  - replace ((48 <=? 48 + d) && (48 + d <? 58)) with true by lia. split; [reflexivity|lia].
  - replace ((48 <=? 87 + d) && (87 + d <? 58)) with false by lia. split; lia.
Qed.
Lemma hex_digits_ok n : forall z, 0 <= z < 16 ^ Z.of_nat n -> (n <> 0)%nat ->
  hex_digits n z <> [] /\ forallb hex_digit (hex_digits n z) = true /\ hex_number (hex_digits n z) = z.
Proof.
  induction n as [|n IH]; intros z H N; [contradiction|]. cbn [hex_digits]. destruct (z <? 16) eqn:E.
  - destruct (hex_char_ok z ltac:(lia)) as (A & B). split; [discriminate|]. split; [cbn; now rewrite A|]. unfold hex_number. cbn [fold_left]. rewrite B. lia.
  - replace (Z.of_nat (S n)) with (Z.of_nat n + 1) in H by lia. rewrite Z.pow_add_r in H by lia. change (16 ^ 1) with 16 in H.
    assert (Q : 0 <= z / 16 < 16 ^ Z.of_nat n).
    { split; [apply Z.div_pos; lia|]. apply Z.div_lt_upper_bound; lia. }
    destruct n as [|n]. { cbn in Q. pose proof (Z.div_le_lower_bound z 16 1 ltac:(lia) ltac:(lia)). lia. }
    destruct (IH _ Q ltac:(lia)) as (A & B & C). destruct (hex_char_ok (z mod 16) (Z.mod_pos_bound z 16 ltac:(lia))) as (D & F).
    split; [intros X; apply app_eq_nil in X; destruct X as (_ & X); discriminate X|]. split.
    + rewrite forallb_app, B. cbn [forallb]. now rewrite D.
    + rewrite hex_number_snoc, C, F. pose proof (Z.div_mod z 16). lia.
Qed.
Definition hex_pieces (n : str) (z : Z) : list piece := [tk n (KName n); sp; kop "="; sp; tk (hex_text z) (KNum z)].
Lemma hex_good n z : name n -> 0 <= z < 2 ^ 64 -> good (hex_pieces n z).
Proof.
  intros N H. destruct (hex_digits_ok 16 z ltac:(change (16 ^ Z.of_nat 16) with (2 ^ 64); lia) ltac:(discriminate)) as (A & B & C).
  assert (S : spells (hex_text z) (KNum z)) by (rewrite <- C at 2; exact (sp_hex _ A B)).
  unfold hex_pieces. change [tk n (KName n); sp; kop "="; sp; tk (hex_text z) (KNum z)] with ([tk n (KName n)] ++ sp :: kop "=" :: sp :: [tk (hex_text z) (KNum z)]).
  apply good_app; [now apply name_good| |reflexivity]. apply good_sp, good_op; [reflexivity|]. split; [repeat constructor; exact S|reflexivity].
Qed.
Lemma hex_parses k n z : parses k [(k, toks_of (hex_pieces n z))] [qSet (tOne n) (xNum z)].
Proof. apply parses_set. apply prints_down with (m := 4%nat); [apply g_num|lia|lia]. Qed.
Lemma hex_flat n z : flat (hex_pieces n z) = n ++ lit " = " ++ hex_text z.
Proof. unfold hex_pieces. cbn [flat flat_map spell kop app]. now rewrite app_nil_r. Qed.
Lemma blk_hex k n z : name n -> 0 <= z < 2 ^ 64 -> block k [ln k (n ++ lit " = " ++ hex_text z)] [qSet (tOne n) (xNum z)].
Proof.
  intros N H. rewrite <- hex_flat. apply blk_line with (t := KName n); [now apply hex_good|reflexivity|reflexivity|apply hex_parses].
Qed.
Lemma mb_hex n z : name n -> 0 <= z < 2 ^ 64 -> mblock [n ++ lit " = " ++ hex_text z] [mStmt (qSet (tOne n) (xNum z))].
Proof.
  intros N H. rewrite <- hex_flat. exists [(O, toks_of (hex_pieces n z))]. split.
  - exact (logical_line 0 n (KName n) _ (good_ok _ (hex_good n z N H)) eq_refl).
  - apply mparses_item. intros rest l2 m P.
    assert (Q : exists n0, p_simple n0 (toks_of (hex_pieces n z)) = Some (qSet (tOne n) (xNum z))).
    { apply simple_of; [repeat split|apply hex_parses]. }
    destruct Q as (n0 & Q). eexists _, rest, (Datatypes.S n0). split; [reflexivity|]. apply item_simple; [|exact Q]. repeat split.
Qed.

(** ** Strings *)
Lemma plain_ident n : ident n = true -> PySyntaxFacts.plain n.
Proof.
  intros I c H. apply ident_chars in I. rewrite forallb_forall in I. apply I in H. repeat split; intros ->; discriminate H.
Qed.
Lemma sh_str s : sh (xStr s) = quoted s.
Proof. unfold sh, quoted. cbn [pcs flat flat_map spell]. now rewrite app_nil_r. Qed.
Lemma sh_const c : sh (xConst c) = const_str c.
Proof. unfold sh. cbn [pcs flat flat_map spell]. apply app_nil_r. Qed.
Lemma all_wfx l : Forall wfx l -> (fix all l := match l with [] => True | x :: r => wfx x /\ all r end) l.
Proof. induction 1; [exact Logic.I|]. split; assumption. Qed.

(** ** Enums *)
Definition enum_body (name : str) (id : option Z) (items : list str) : list pstmt :=
  [set "__capnpy_id__" (match id with Some z => num z | None => xConst CNone end); set "__members__" (xTup (map xStr items));
   qDef (Some (lit "staticmethod")) (lit "_new") [(lit "x", None)] [qReturn (xApp (xVar name) [xVar (lit "x")] [])]].
Definition enum_ast (name : str) (id : option Z) (items : list str) : list mstmt :=
  [mClass [] name (lit "_BaseEnum") (enum_body name id items); mStmt (qExpr (xApp (xVar (lit "_fill_enum")) [xVar name] []))].
Lemma enum_block n id items : name n -> items <> [] -> Forall PySyntaxFacts.plain items -> mblock (enum_text n id items) (enum_ast n id items).
Proof.
  intros N Ne P. unfold enum_text, enum_ast.
  change [lit "class " ++ n ++ lit "(_BaseEnum):"; ln 4 (lit "__capnpy_id__ = " ++ match id with Some z => dec z | None => lit "None" end);
   ln 4 (lit "__members__ = (" ++ args_text (map quoted items) ++ lit ",)"); ln 4 (lit "@staticmethod"); ln 4 (lit "def _new(x):"); ln 8 (lit "return " ++ n ++ lit "(x)"); lit "_fill_enum(" ++ n ++ lit ")"]
  with ((class_head n (lit "_BaseEnum") :: [ln 4 (lit "__capnpy_id__ = " ++ match id with Some z => dec z | None => lit "None" end);
   ln 4 (lit "__members__ = (" ++ args_text (map quoted items) ++ lit ",)"); ln 4 (lit "@staticmethod"); ln 4 (lit "def _new(x):"); ln 8 (lit "return " ++ n ++ lit "(x)")]) ++ [lit "_fill_enum(" ++ n ++ lit ")"]).
  apply (mb_app _ _ [_] [_]).
  - apply (mb_class [] n (lit "_BaseEnum") 4); [constructor|exact N|split; reflexivity|lia|discriminate|]. unfold enum_body.
    apply (blk_cons 4 _ _ [_] [_; _]).
    { apply set_block; [split; reflexivity|destruct id; [apply wf_num|exact Logic.I]|]. destruct id; [rewrite sh_numz|rewrite sh_const]; reflexivity. }
    apply (blk_cons 4 _ _ [_] [_]).
    { replace (lit "__members__ = (" ++ args_text (map quoted items) ++ lit ",)") with (lit "__members__" ++ lit " = " ++ sh (xTup (map xStr items))).
      - apply blk_set; [split; reflexivity|]. cbn [wfx]. split; [destruct items; [contradiction|discriminate]|]. apply all_wfx. rewrite Forall_map. exact P.
      - rewrite sh_tup. unfold args_text. rewrite map_map. rewrite (map_ext _ _ sh_str). reflexivity. }
    assert (B : block 8 [ln 8 (lit "return " ++ n ++ lit "(x)")] [qReturn (xApp (xVar n) [xVar (lit "x")] [])]).
    { replace (lit "return " ++ n ++ lit "(x)") with (lit "return " ++ sh (xApp (xVar n) [xVar (lit "x")] [])) by (shs; reflexivity).
      apply blk_return. wf. }
    exact (blk_def 4 8 (Some (lit "staticmethod")) (lit "_new") [(lit "x", None)] _ [qReturn (xApp (xVar n) [xVar (lit "x")] [])] ltac:(split; reflexivity) ltac:(split; reflexivity)
      ltac:(apply Forall_cons; [split; [split; reflexivity|exact Logic.I]|apply Forall_nil]) Logic.I eq_refl ltac:(lia) ltac:(discriminate) B).
  - replace (lit "_fill_enum(" ++ n ++ lit ")") with (sh (xApp (xVar (lit "_fill_enum")) [xVar n] [])) by (shs; reflexivity).
    apply mb_call; [split; reflexivity|wf].
Qed.

Definition item_ast (ty name : str) : mstmt := mStmt (qSet (tOne (lit "_" ++ name ++ lit "_list_item_type")) (xApp (xVar (lit "_" ++ ty)) [xVar name] [])).
Lemma item_name n : ident n = true -> name (lit "_" ++ n ++ lit "_list_item_type").
Proof.
  intros I. rewrite app_assoc. assert (J : ident (lit "_" ++ n) = true) by (apply ident_prefix; [reflexivity|now apply ident_chars]).
  split; [apply ident_prefix; [exact J|reflexivity]|]. apply keyword_underscore. apply in_or_app. left. now left.
Qed.
Lemma item_block ty n : name n -> name (lit "_" ++ ty) ->
  mblock [lit "_" ++ n ++ lit "_list_item_type = _" ++ ty ++ lit "(" ++ n ++ lit ")"] [item_ast ty n].
Proof.
  intros N T. replace (lit "_" ++ n ++ lit "_list_item_type = _" ++ ty ++ lit "(" ++ n ++ lit ")")
    with ((lit "_" ++ n ++ lit "_list_item_type") ++ lit " = " ++ sh (xApp (xVar (lit "_" ++ ty)) [xVar n] [])).
  - apply mb_set; [apply item_name, N|wf].
  - shs. reflexivity.
Qed.
Lemma enum_decl_block n id items : name n -> items <> [] -> Forall PySyntaxFacts.plain items ->
  mblock (enum_decl_text n id items) (enum_ast n (Some id) items ++ [item_ast (lit "EnumItemType") n]).
Proof.
  intros N Ne P. unfold enum_decl_text. apply mb_app; [now apply enum_block|].
  apply (mb_app [_] [_] [_] []); [|exact (mb_blank 0)]. exact (item_block (lit "EnumItemType") n N ltac:(split; reflexivity)).
Qed.

(** ** Structs: the declaration *)
Definition struct_decl_ast (s : struct_decl) : list mstmt :=
  [mClass [] (sd_name s) (lit "_Struct") [qPass]; mAttr (sd_name s) (lit "__name__") (xStr (sd_dotname s))] ++
  match sd_items s with [] => [] | items => enum_ast (tag_name s) None items end.
Lemma tag_name_ok s : name (sd_name s) -> name (tag_name s).
Proof.
  intros N. split; [apply ident_prefix; [apply N|reflexivity]|]. apply keyword_underscore. apply in_or_app. right. now left.
Qed.
Lemma struct_decl_block s : name (sd_name s) -> PySyntaxFacts.plain (sd_dotname s) -> Forall PySyntaxFacts.plain (sd_items s) ->
  mblock (struct_decl_text s) (struct_decl_ast s).
Proof.
  intros N P I. unfold struct_decl_text, struct_decl_ast. apply (mb_app [_; _] _ [_; _]).
  - apply (mb_app [_] [_] [_] [_]); [exact (mb_pass (sd_name s) (lit "_Struct") N ltac:(split; reflexivity))|].
    rewrite <- sh_str. exact (mb_attr (sd_name s) (lit "__name__") (xStr (sd_dotname s)) N ltac:(split; reflexivity) P).
  - rewrite <- (app_nil_r (match sd_items s with [] => [] | items => enum_ast (tag_name s) None items end)). apply mb_app; [|exact (mb_blank 0)].
    destruct (sd_items s) as [|x l] eqn:E; [apply mb_nil|]. apply enum_block; [now apply tag_name_ok|discriminate|exact I].
Qed.

(** ** Annotations *)
Definition ann_body (id : Z) (targets : list bool) : list pstmt :=
  qSet (tOne (lit "__capnpy_id__")) (xNum id) ::
  map (fun p => qSet (tOne (lit "targets_" ++ lit (fst p))) (xConst (if snd p : bool then CTrue else CFalse))) (combine annotation_targets targets).
Lemma ann_block n id targets : name n -> 0 <= id < 2 ^ 64 -> mblock (ann_text n id targets) [mClass [] n (lit "object") (ann_body id targets)].
Proof.
  intros N H. unfold ann_text. cbn [app].
  apply (mb_class [] n (lit "object") 4); [constructor|exact N|split; reflexivity|lia|discriminate|]. unfold ann_body.
  apply (blk_cons 4 _ _ [_]); [exact (blk_hex 4 (lit "__capnpy_id__") id ltac:(split; reflexivity) H)|].
  assert (G : forall l, Forall (fun p : string * bool => name (lit "targets_" ++ lit (fst p))) l ->
    block 4 (map (fun p => ln 4 (lit "targets_" ++ lit (fst p) ++ lit " = " ++ bool_text (snd p))) l)
      (map (fun p => qSet (tOne (lit "targets_" ++ lit (fst p))) (xConst (if snd p : bool then CTrue else CFalse))) l)).
  { induction 1 as [|[t b] l Np F IH]; [apply blk_nil|]. cbn [map]. apply (blk_cons 4 _ _ [_] _); [|exact IH]. cbn [fst snd] in *.
    replace (lit "targets_" ++ lit t ++ lit " = " ++ bool_text b) with ((lit "targets_" ++ lit t) ++ lit " = " ++ sh (xConst (if b then CTrue else CFalse))).
    - apply blk_set; [exact Np|exact Logic.I].
    - rewrite sh_const, <- app_assoc. destruct b; reflexivity. }
  apply G. apply Forall_forall. intros [t b] I. apply in_combine_l in I. cbn [fst]. unfold annotation_targets in I. cbn [In] in I.
  repeat (destruct I as [<-|I]; [split; reflexivity|]). destruct I.
Qed.

(** ** Structs: the definition *)
Section def.
  Context (fl : Z -> str) (nm : string -> string -> names) (val : str -> pexp).
  (** what the texts of the values of constants are read as *)
  Definition val_ok (v : str) : Prop := wfx (val v) /\ sh (val v) = v.
  Definition ref_ast (nested : bool) (n : mnode) : list (str * pexp) :=
    match n with
    | NStruct s _ => if nested && negb (sd_group s) then [(sd_short s, xVar (sd_name s))] else []
    | NEnum short name _ _ => if nested then [(short, xVar name)] else []
    | NConst name v => [(name, val v)]
    | NAnn _ _ _ => []
    end.
  Definition ref_ok (nested : bool) (n : mnode) : Prop :=
    match n with
    | NStruct s _ => name (sd_short s) /\ name (sd_name s)
    | NEnum short n _ _ => name short /\ name n
    | NConst n v => name n /\ val_ok v
    | NAnn _ _ _ => True
    end.
  Definition assign (p : str * pexp) : pstmt := qSet (tOne (fst p)) (snd p).
  Lemma ref_one nested n : ref_ok nested n -> ref_text nested n = map (fun p => fst p ++ lit " = " ++ sh (snd p)) (ref_ast nested n) /\
    Forall (fun p => name (fst p) /\ wfx (snd p)) (ref_ast nested n).
  Proof.
    intros H. destruct n as [s ch|short n id items|n v|n id ts]; cbn [ref_text ref_ast ref_ok] in *.
    - destruct (nested && negb (sd_group s)); [|split; [reflexivity|constructor]]. split; [cbn [map fst snd]; now rewrite sh_var|]. constructor; [exact H|constructor].
    - destruct nested; [|split; [reflexivity|constructor]]. split; [cbn [map fst snd]; now rewrite sh_var|]. constructor; [exact H|constructor].
    - destruct H as (N & W & E). split; [cbn [map fst snd]; now rewrite E|]. constructor; [split; assumption|constructor].
    - split; [reflexivity|constructor].
  Qed.
  Lemma refs_ok nested l : (forall n, In n l -> ref_ok nested n) ->
    flat_map (ref_text nested) l = map (fun p => fst p ++ lit " = " ++ sh (snd p)) (flat_map (ref_ast nested) l) /\
    Forall (fun p => name (fst p) /\ wfx (snd p)) (flat_map (ref_ast nested) l).
  Proof.
    induction l as [|n l IH]; intros H; [split; [reflexivity|constructor]|]. destruct (ref_one nested n (H n (or_introl eq_refl))) as (A & B).
    destruct IH as (C & D); [intros x X; apply H; now right|]. cbn [flat_map]. rewrite A, C, map_app. split; [reflexivity|]. now apply Forall_app.
  Qed.
  Lemma refs_block k l : Forall (fun p => name (fst p) /\ wfx (snd p)) l -> block k (map (ln k) (map (fun p => fst p ++ lit " = " ++ sh (snd p)) l)) (map assign l).
  Proof.
    induction 1 as [|p l (N & W) F IH]; [apply blk_nil|]. cbn [map]. apply (blk_cons k _ _ [_] _); [now apply blk_set|exact IH].
  Qed.
  Lemma refs_module l : Forall (fun p => name (fst p) /\ wfx (snd p)) l -> mblock (map (fun p => fst p ++ lit " = " ++ sh (snd p)) l) (map (fun p => mStmt (assign p)) l).
  Proof.
    induction 1 as [|p l (N & W) F IH]; [apply mb_nil|]. cbn [map]. apply (mb_app [_] _ [_] _); [now apply mb_set|exact IH].
  Qed.

  Definition tag_ast (s : struct_decl) : list pstmt :=
    match sn_utag (sd_sn s), sd_items s with
    | Some u, _ :: _ => [set "__tag__" (xVar (tag_name s)); set "__tag_offset__" (num (u * 2))]
    | _, _ => []
    end.
  Definition last_ast (s : struct_decl) : list pstmt :=
    qDef None (lit "shortrepr") [(lit "self", None)] (repr_ast (sd_fields s)) ::
    match sd_key s with Some l => [qDef None (lit "_key") [(lit "self", None)] (key_ast l)] | None => [] end.
  Definition first_ast (s : struct_decl) (ch : list mnode) : list pstmt :=
    [set "__capnpy_id__" (xNum (sd_id s)); set "__static_data_size__" (num (sn_ds (sd_sn s))); set "__static_ptrs_size__" (num (sn_ps (sd_sn s)))] ++
    map assign (flat_map (ref_ast true) ch) ++ tag_ast s.
  Lemma first_block s ch : name (sd_name s) -> 0 <= sd_id s < 2 ^ 64 -> (forall n, In n ch -> ref_ok true n) ->
    block 4 ([ln 4 (lit "__capnpy_id__ = " ++ hex_text (sd_id s)); ln 4 (lit "__static_data_size__ = " ++ dec (sn_ds (sd_sn s)));
      ln 4 (lit "__static_ptrs_size__ = " ++ dec (sn_ps (sd_sn s))); blank_line 4] ++
      map (ln 4) (flat_map (ref_text true) ch) ++ [blank_line 4] ++ tag_text s) (first_ast s ch).
  Proof.
    intros N I R. unfold first_ast. apply blk_app.
    - apply (blk_cons 4 _ _ [_] [_; _]); [exact (blk_hex 4 (lit "__capnpy_id__") (sd_id s) ltac:(split; reflexivity) I)|].
      apply (blk_cons 4 _ _ [_] [_]); [apply set_block; [split; reflexivity|apply wf_num|now rewrite sh_numz]|].
      apply (blk_cons 4 _ _ [_] []); [apply set_block; [split; reflexivity|apply wf_num|now rewrite sh_numz]|]. apply blk_blank.
    - destruct (refs_ok true ch R) as (E & F). rewrite E. apply blk_app; [now apply refs_block|]. apply (blk_app 4 [_] _ [] _); [apply blk_blank|].
      unfold tag_text, tag_ast. destruct (sn_utag (sd_sn s)) as [u|]; [|apply blk_nil]. destruct (sd_items s) as [|x l]; [apply blk_nil|].
      apply (blk_cons 4 _ _ [_] [_]); [apply set_block; [split; reflexivity|cbn [wfx]; now apply tag_name_ok|now rewrite sh_var]|].
      apply (blk_cons 4 _ _ [_] []); [apply set_block; [split; reflexivity|apply wf_num|now rewrite sh_numz]|]. apply blk_blank.
  Qed.
  Definition key_ok (s : struct_decl) : Prop := match sd_key s with Some l => l <> [] /\ Forall (fun f => py_name (lit (f_name f))) l | None => True end.
  Lemma last_block s : Forall shown_field (sd_fields s) -> key_ok s ->
    block 4 (repr_text 4 (sd_fields s) ++ match sd_key s with Some l => key_method 4 l | None => [] end) (last_ast s).
  Proof.
    intros F K. unfold last_ast. apply (blk_app 4 _ _ [_] _); [now apply repr_block|]. unfold key_ok in K.
    destruct (sd_key s) as [l|]; [|apply blk_nil]. now apply key_block.
  Qed.

  Definition struct_body (s : struct_decl) (ch : list mnode) (body : list pstmt) : list pstmt := first_ast s ch ++ body ++ last_ast s.
  Definition struct_def_ast (s : struct_decl) (ch : list mnode) (body : list pstmt) : list mstmt :=
    [mClass [sd_name s; lit "__extend__"] (sd_name s) (lit "_Struct") (struct_body s ch body); item_ast (lit "StructItemType") (sd_name s)].
  Lemma struct_def_block (nms : str -> string -> string -> names) s ch body : name (sd_name s) -> 0 <= sd_id s < 2 ^ 64 -> (forall n, In n ch -> ref_ok true n) ->
    Forall shown_field (sd_fields s) -> key_ok s -> block 4 (class_text fl (nms (sd_name s)) 4 (sd_name s) (sd_group s) (sd_sn s)) body ->
    mblock (struct_def_text fl nms s ch) (struct_def_ast s ch body).
  Proof.
    intros N I R F K B. unfold struct_def_text, struct_def_ast.
    change [lit "@" ++ sd_name s ++ lit ".__extend__"; lit "class " ++ sd_name s ++ lit "(_Struct):"] with (dec_lines [sd_name s; lit "__extend__"] ++ [class_head (sd_name s) (lit "_Struct")]).
    rewrite app_assoc, <- (app_assoc (dec_lines _)). apply (mb_app _ _ [_] [_]).
    - apply (mb_class [sd_name s; lit "__extend__"] (sd_name s) (lit "_Struct") 4).
      + constructor; [exact N|]. constructor; [split; reflexivity|constructor].
      + exact N.
      + split; reflexivity.
      + lia.
      + unfold struct_body, first_ast. discriminate.
      + unfold struct_body_text, struct_body. pose proof (first_block s ch N I R) as B1. pose proof (last_block s F K) as B2.
        pose proof (blk_app 4 _ _ _ _ B1 (blk_app 4 _ _ _ _ B B2)) as B3. rewrite <- !app_assoc in B3. exact B3.
    - apply (mb_app [_] [_; _] [] [_]); [exact (mb_blank 0)|]. apply (mb_app [_] [_] [_] []); [|exact (mb_blank 0)].
      exact (item_block (lit "StructItemType") (sd_name s) N ltac:(split; reflexivity)).
  Qed.
End def.
