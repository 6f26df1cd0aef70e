(** Running the definitions of a module, one after the other. *)
From Coq Require Import Strings.String.
From Verif Require FloatBits.
From Verif Require Import Base BaseFacts Spec CopyList Case CaseFacts Loader List PyExpr Ctor PySyntax PySyntaxFacts PyPrint PyRun GenRun GenText GenTextFacts
  ClassText ReprText KeyText TextSpec ClassSpec ReprTextFacts ClassFacts PyModule PyModuleFacts ModuleText ModuleTextFacts ModuleRead PyModuleRun ModuleRunFacts ModuleRun2 ModuleSpec ModuleRun3 ModuleRun4 ModuleRun5.
From Coq Require Import Lists.List Permutation.
Local Notation length := Datatypes.length.
Local Open Scope string_scope.
Local Open Scope list_scope.
Local Open Scope Z_scope.

Section defs.
  Context (w : world) (fl : Z -> str) (nm : str -> string -> string -> names) (val : str -> pexp).
  Definition bound (g : env) (x : str) : Prop := exists v, get g x = Some v.
  (** what a definition needs *)
  Definition def_ready (g : env) (s : struct_decl) (ch : list mnode) (b : list pstmt) : Prop :=
    node_readable w fl nm val (NStruct s ch) /\ (forall c, In c ch -> node_readable w fl nm val c) /\ node_named (NStruct s ch) /\
    (forall x, In x (flat_map module_name ch) -> bound g x) /\ (sd_items s <> [] -> bound g (tag_name s)) /\
    Permutation (defs b) (class_methods (sd_group s) (sd_sn s)) /\ forallb is_def b = true.
  Definition full_cls (g : env) (s : struct_decl) (ch : list mnode) (b : list pstmt) : pycls := add_attrs (body_attrs val g s ch b) (struct_cls s).

  Lemma def_step version g H s ch b i : runtime_ok g -> def_ready g s ch b -> class_is (mkmst g H) (sd_name s) i (struct_cls s) -> ~ In (sd_name s) needed_names ->
    exec version (struct_def_ast val s ch b) (mkmst g H) =
    Ok (mkmst ([(item_name (sd_name s), VItem (lit "StructItemType") i); (sd_name s, VCls i)] ++ g) (change_nth (add_attrs (body_attrs val g s ch b)) i H)).
  Proof.
    intros R (Nr & Nc & Nn & Bd & Bt & P & D) (Cg & Ch) Ns. unfold struct_def_ast. cbn [exec exec_item m_globals m_heap] in *.
    rewrite (look_needed g "_Struct" (ext ["capnpy"; "struct_"] "Struct") R ltac:(need)). cbn [bind].
    rewrite (body_run w fl nm val g s ch b Nr Nc Nn Bd Bt D). cbn [bind]. change (str_eqb (lit "__extend__") (lit "__extend__")) with true. cbn iota.
    rewrite (look_global g _ _ Cg). cbn [bind]. destruct (names_once fl nm val g s ch b P (proj1 Nn)) as (_ & Ec). rewrite Ec.
    unfold set_attrs, item_ast. cbn [bind_global m_globals m_heap exec_item ev]. change (bind_global (mkmst g ?h) ?a ?c) with (mkmst ((a, c) :: g) h). cbn [m_globals m_heap].
    set (g' := (sd_name s, VCls i) :: g). assert (R' : runtime_ok g') by now apply runtime_one.
    change (lit "_" ++ lit "StructItemType") with (lit "_StructItemType").
    rewrite (look_needed g' "_StructItemType" (ext ["capnpy"; "list"] "StructItemType") R' ltac:(need)). cbn [bind].
    change (ext_is (ext ["capnpy"; "list"] "StructItemType") ["capnpy"; "list"] "EnumItemType" || ext_is (ext ["capnpy"; "list"] "StructItemType") ["capnpy"; "list"] "StructItemType") with true. cbn iota.
    assert (L : look [] g' (sd_name s) = Ok (VCls i)) by (apply look_global; unfold g'; cbn [get]; now rewrite str_eqb_refl).
    rewrite L. reflexivity.
  Qed.

  Definition snames (l : list mnode) : list str := flat_map (fun n => match n with NStruct s _ => [sd_name s] | _ => [] end) l.
  Definition inames (l : list mnode) : list str := map item_name (snames l).
  Lemma cnt_flat_le (f g : mnode -> list str) l x : (forall n, (cnt (f n) x <= cnt (g n) x)%nat) -> (cnt (flat_map f l) x <= cnt (flat_map g l) x)%nat.
  Proof. intros L. induction l as [|n l IH]; [apply Nat.le_refl|]. cbn [flat_map]. rewrite !cnt_app. specialize (L n). lia. Qed.
  Lemma names_names l : NoDup (flat_map module_names l) -> NoDup (snames l ++ inames l) /\ incl (snames l ++ inames l) (flat_map module_names l).
  Proof.
    intros N. pose proof (proj1 (NoDup_count_occ dec_str _) N) as C.
    assert (L : forall x, (cnt (snames l ++ inames l) x <= cnt (flat_map module_names l) x)%nat).
    { intros x. rewrite cnt_app. clear N C. induction l as [|n l IH]; [apply Nat.le_refl|]. unfold inames in *. cbn [snames flat_map]. rewrite map_app, !cnt_app.
      fold (snames l). destruct n as [s ch|a b c d|a b|a b c]; cbn [map app module_names]; rewrite ?cnt_nil; try lia.
      rewrite !cnt_cons, !cnt_app, !cnt_cons, !cnt_nil. lia. }
    split.
    - apply (NoDup_count_occ dec_str). intros x. specialize (C x). specialize (L x). unfold cnt in L. lia.
    - intros x I. apply (count_occ_In dec_str) in I. apply (count_occ_In dec_str). specialize (L x). unfold cnt in L. lia.
  Qed.

  (** what the definitions leave; [g]: the namespace before them, [l]: all their nodes *)
  Definition def_facts (g : env) (l : list mnode) (st : mst) (p : mnode * list pstmt) : Prop :=
    match fst p with
    | NStruct s ch => exists i g0, class_is st (sd_name s) i (full_cls g0 s ch (snd p)) /\ get (m_globals st) (item_name (sd_name s)) = Some (VItem (lit "StructItemType") i) /\
        forall x, ~ In x (inames l) -> get g0 x = get g x
    | _ => True
    end.
  Definition p_ready (g : env) (H : list pycls) (p : mnode * list pstmt) : Prop :=
    match fst p with
    | NStruct s ch => def_ready g s ch (snd p) /\ exists i, class_is (mkmst g H) (sd_name s) i (struct_cls s)
    | _ => True
    end.
  Lemma bound_new b g x : bound g x -> bound (b ++ g) x.
  Proof. intros (v & G). unfold bound. rewrite get_app. destruct (get b x) as [u|]; [exists u|exists v]; [reflexivity|exact G]. Qed.
  Lemma NoDup_parts (x : str) a (y : str) b : NoDup ((x :: a) ++ (y :: b)) -> x <> y /\ ~ In x a /\ ~ In x b /\ ~ In y a /\ ~ In y b /\ NoDup (a ++ b).
  Proof.
    intros N. cbn [app] in N. inversion N as [|? ? Nx N']; subst. pose proof (NoDup_remove_1 _ _ _ N') as N1. pose proof (NoDup_remove_2 _ _ _ N') as N2.
    repeat split; try (intros X; apply N2; apply in_or_app; tauto); try exact N1; try (intros X; apply Nx; apply in_or_app; cbn; tauto).
    intros ->. apply Nx, in_or_app. right. now left.
  Qed.
  Lemma defs_run version bs : forall g H, runtime_ok g -> Forall (p_ready g H) bs -> NoDup (snames (map fst bs) ++ inames (map fst bs)) ->
    (forall x, In x (snames (map fst bs) ++ inames (map fst bs)) -> ~ In x needed_names) ->
    exists g' H', exec version (flat_map (def_ast val) bs) (mkmst g H) = Ok (mkmst g' H') /\ runtime_ok g' /\
      (forall x, ~ In x (inames (map fst bs)) -> get g' x = get g x) /\
      (forall j c, ~ In (pc_name c) (snames (map fst bs)) -> nth_error H j = Some c -> nth_error H' j = Some c) /\
      Forall (def_facts g (map fst bs) (mkmst g' H')) bs.
  Proof.
    induction bs as [|[n b] bs IH]; intros g H R F N Nn.
    { exists g, H. split; [reflexivity|]. split; [exact R|]. split; [reflexivity|]. split; [auto|constructor]. }
    inversion F as [|? ? Fp F']; subst.
    destruct n as [s ch|a1 a2 a3 a4|a1 a2|a1 a2 a3]; try (destruct (IH g H R F' N Nn) as (g' & H' & E & X1 & X2 & X3 & X4); exists g', H'; split; [exact E|];
      split; [exact X1|]; split; [exact X2|]; split; [exact X3|]; constructor; [exact Logic.I|exact X4]).
    cbn [p_ready fst snd] in Fp. destruct Fp as (Rd & i & C). cbn [map fst] in *.
    change (snames (NStruct s ch :: map fst bs)) with (sd_name s :: snames (map fst bs)) in *.
    change (inames (NStruct s ch :: map fst bs)) with (item_name (sd_name s) :: inames (map fst bs)) in *.
    destruct (NoDup_parts _ _ _ _ N) as (D1 & D2 & D3 & D4 & D5 & N').
    pose proof (def_step version g H s ch b i R Rd C ltac:(apply Nn; now left)) as E. set (nb := [(item_name (sd_name s), VItem (lit "StructItemType") i); (sd_name s, VCls i)]) in *.
    set (H1 := change_nth (add_attrs (body_attrs val g s ch b)) i H) in *.
    assert (G1 : forall x, x <> item_name (sd_name s) -> get (nb ++ g) x = get g x).
    { intros x Nx. unfold nb. cbn [app get]. destruct (str_eqb (item_name (sd_name s)) x) eqn:Q; [apply str_eqb_spec in Q; congruence|].
      destruct (str_eqb (sd_name s) x) eqn:Q2; [|reflexivity]. apply str_eqb_spec in Q2. subst x. symmetry. apply C. }
    assert (K1 : forall j c, pc_name c <> sd_name s -> nth_error H j = Some c -> nth_error H1 j = Some c).
    { intros j c Nj Hj. unfold H1. rewrite change_other; [exact Hj|]. intros ->. destruct C as (_ & C). cbn [m_heap] in C. rewrite Hj in C. injection C as ->. apply Nj. reflexivity. }
    assert (R1 : runtime_ok (nb ++ g)).
    { apply runtime_new; [|exact R]. intros x [<-|[<-|[]]]; apply Nn; [right; apply in_or_app; right|]; now left. }
    destruct (IH (nb ++ g) H1 R1) as (g' & H' & E2 & R2 & G2 & K2 & F2); [|exact N'|intros x X; apply Nn; apply in_app_or in X; destruct X as [X|X]; [right; apply in_or_app; now left|right; apply in_or_app; right; now right]|].
    { apply Forall_forall. intros [n2 b2] I2. rewrite Forall_forall in F'. specialize (F' _ I2). unfold p_ready in *. cbn [fst snd] in *. destruct n2 as [s2 ch2|a1 a2 a3 a4|a1 a2|a1 a2 a3]; try exact Logic.I.
      destruct F' as ((Y1 & Y2 & Y3 & Y4 & Y5 & Y6) & j & C2). split.
      - split; [exact Y1|]. split; [exact Y2|]. split; [exact Y3|]. split; [intros x X; apply bound_new, Y4, X|]. split; [intros X; apply bound_new, Y5, X|exact Y6].
      - assert (Is : In (sd_name s2) (snames (map fst bs))).
        { apply in_flat_map. exists (NStruct s2 ch2). split; [apply in_map_iff; exists (NStruct s2 ch2, b2); split; [reflexivity|exact I2]|now left]. }
        exists j. eapply class_is_mono; [exact C2| |].
        + apply G1. intros X. apply D4. now rewrite <- X.
        + apply K1. cbn [struct_cls pc_name]. intros X. apply D2. now rewrite <- X. }
    exists g', H'. cbn [flat_map]. change (def_ast val (NStruct s ch, b)) with (struct_def_ast val s ch b). rewrite exec_app, E. cbn [bind]. split; [exact E2|]. split; [exact R2|]. split; [|split].
    - intros x X. rewrite G2 by (intros Y; apply X; now right). apply G1. intros Y. apply X. now left.
    - intros j c X Hj. apply K2; [intros Y; apply X; now right|]. apply K1; [intros Y; apply X; left; now symmetry|exact Hj].
    - constructor.
      + unfold def_facts. cbn [fst snd]. exists i, g. split; [split|split]; cbn [m_globals m_heap].
        * rewrite G2 by assumption. rewrite G1 by assumption. apply C.
        * apply K2; [exact D2|]. unfold H1, full_cls. apply change_same. apply C.
        * rewrite G2 by assumption. unfold nb. cbn [app get]. now rewrite str_eqb_refl.
        * reflexivity.
      + eapply Forall_impl; [|exact F2]. intros [n2 b2] Df. unfold def_facts in *. cbn [fst snd] in *. destruct n2 as [s2 ch2|a1 a2 a3 a4|a1 a2|a1 a2 a3]; try exact Logic.I.
        destruct Df as (j & g0 & C2 & It & Gx). exists j, g0. split; [exact C2|]. split; [exact It|]. intros x X. rewrite Gx by (intros Y; apply X; now right).
        apply G1. intros Y. apply X. now left.
  Qed.

  (** the constants of the module *)
  Lemma tops_run version l : forall g H, (forall n, In n l -> node_readable w fl nm val n) ->
    exists B, exec version (map (fun p => mStmt (assign p)) (flat_map (ref_ast val false) l)) (mkmst g H) = Ok (mkmst (B ++ g) H) /\ incl (keys B) (top_names l) /\
      (NoDup (top_names l) -> forall n v, In (NConst n v) l -> constant_is v (get (B ++ g) n)).
  Proof.
    induction l as [|n l IH]; intros g H R; [exists []; split; [reflexivity|split; [intros x []|intros _ n v []]]|]. cbn [flat_map].
    destruct n as [s ch|a1 a2 a3 a4|n v|a1 a2 a3]; cbn [ref_ast andb app]; try (destruct (IH g H ltac:(intros y Y; apply R; now right)) as (B & E & K & Q); exists B; split; [exact E|split; [exact K|intros N n0 v0 [X|X]; [discriminate X|now apply Q]]]).
    pose proof (proj2 (R (NConst n v) (or_introl eq_refl))) as Rv. cbn [node_readable] in Rv. cbn [map]. unfold assign at 1. cbn [fst snd exec exec_item m_globals]. rewrite (literal_ref val v Rv g). cbn [bind]. set (x := literal (val v)).
    change (bind_global (mkmst g H) n x) with (mkmst ((n, x) :: g) H). destruct (IH ((n, x) :: g) H ltac:(intros y Y; apply R; now right)) as (B & E & K & Q).
    exists (B ++ [(n, x)]). rewrite E, <- app_assoc. split; [reflexivity|]. split.
    - intros y Y. rewrite keys_app in Y. apply in_app_or in Y. destruct Y as [Y|[<-|[]]]; [right; now apply K|now left].
    - intros N n0 v0 X. cbn [top_names flat_map app] in N. inversion N as [|? ? Nn N']; subst. destruct X as [X|X]; [|now apply Q].
      injection X as <- <-. cbn [app]. rewrite get_new by (intros Y; apply Nn, K, Y). cbn [get]. rewrite str_eqb_refl. exists (val v). split; [apply Rv|]. split; [apply Rv|reflexivity].
  Qed.
  Lemma end_run version h g H : runtime_ok g -> exec version [end_ast h] (mkmst g H) = Ok (mkmst g H).
  Proof.
    intros R. unfold end_ast. cbn [exec exec_item m_globals]. rewrite (look_needed g "_extend_module_maybe" (ext ["capnpy"; "util"] "extend_module_maybe") R ltac:(need)). cbn [bind].
    change (ext_is (ext ["capnpy"; "util"] "extend_module_maybe") ["capnpy"; "enum"] "fill_enum") with false. change (ext_is (ext ["capnpy"; "util"] "extend_module_maybe") ["capnpy"; "util"] "check_version") with false.
    change (ext_is (ext ["capnpy"; "util"] "extend_module_maybe") ["capnpy"; "util"] "extend_module_maybe") with true. reflexivity.
  Qed.
End defs.
