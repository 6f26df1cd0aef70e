(** Proofs about the names of a generated module *)
From Coq Require Import Strings.String Strings.Ascii.
From Verif Require Import Base Case CaseFacts Loader Names.
From Coq Require Import Lists.List.
Local Notation length := Datatypes.length.

Lemma str_eqb_refl' n : str_eqb n n = true. Proof. now apply str_eqb_spec. Qed.
Lemma str_eqb_ne a b : a <> b -> str_eqb a b = false.
Proof. intros N. destruct (str_eqb a b) eqn:E; [|reflexivity]. apply str_eqb_spec in E. contradiction. Qed.

(** *** executing a class body *)
Lemma get_attr_in ns n a : get_attr ns n = Some a -> In (n, a) ns.
Proof.
  induction ns as [|(k, b) r IH]; [discriminate|]. cbn [get_attr]. destruct (str_eqb k n) eqn:E.
  - apply str_eqb_spec in E as ->. intros H. injection H as ->. now left.
  - intros H. right. auto.
Qed.
Lemma get_attr_some ns n a : In (n, a) ns -> exists b, get_attr ns n = Some b.
Proof.
  induction ns as [|(k, b) r IH]; [contradiction|]. cbn [get_attr]. intros [E|I].
  - injection E as -> ->. rewrite str_eqb_refl'. eauto.
  - destruct (str_eqb k n); eauto.
Qed.
Lemma exec_class_ok : forall l ns,
  (forall d x, In x l -> it_deco x = Some d -> get_attr ns d = None /\ forall y, In y l -> it_name y <> d) ->
  exec_class ns l = Ok (rev (map (fun x => (it_name x, it_attr x)) l) ++ ns).
Proof.
  induction l as [|x r IH]; intros ns H; [reflexivity|]. cbn [exec_class map rev].
  assert (R : exec_class ((it_name x, it_attr x) :: ns) r =
    Ok ((rev (map (fun x => (it_name x, it_attr x)) r) ++ [(it_name x, it_attr x)]) ++ ns)).
  { rewrite IH; [rewrite <- app_assoc; reflexivity|]. intros d y I D.
    destruct (H d y (or_intror I) D) as (N & A). split; [|intros z Z; apply A; now right].
    cbn [get_attr]. rewrite str_eqb_ne; [exact N|]. apply A. now left. }
  destruct (it_deco x) as [d|] eqn:D; [|exact R].
  destruct (H d x (or_introl eq_refl) D) as (-> & _). exact R.
Qed.

(** *** the statements, by kind *)
Inductive is_item (c : cdesc) : str -> attr -> Prop :=
| ii_other n : In n [lit "__capnpy_id__"; lit "__static_data_size__"; lit "__static_ptrs_size__"; lit "__tag__";
                     lit "__tag_offset__"; lit "__init__"; lit "shortrepr"; lit "_" ++ c_name c ++ lit "__new"] ->
    is_item c n (AOther n)
| ii_key : c_keyed c = true -> is_item c (lit "_key") (AOther (lit "_key"))
| ii_child n : In n (c_children c) -> is_item c n (AChild n)
| ii_is f d : In f (c_fields c) -> fd_union f = Some d -> is_item c (lit "is_" ++ fd_py f) (AIs d)
| ii_prop f : In f (c_fields c) -> is_item c (fd_py f) (AProp f)
| ii_get f : In f (c_fields c) -> fd_kind f = KPointer -> is_item c (lit "get_" ++ fd_py f) (AGet f)
| ii_has f : In f (c_fields c) -> pointerish (fd_kind f) -> is_item c (lit "has_" ++ fd_py f) (AHas f)
| ii_like f : In f (c_fields c) -> fd_kind f = KGroup -> is_item c (capitalize (fd_py f)) (ALike f)
| ii_priv f : In f (c_fields c) -> fd_kind f = KNullable -> is_item c (lit "_" ++ fd_py f) (APriv f)
| ii_new f : In f (c_fields c) -> fd_union f <> None -> is_item c (lit "new_" ++ fd_py f) (ANew f).

Lemma enum_item_spec c i : capnp_class c -> (i < c_count c)%nat ->
  exists f, In f (c_fields c) /\ fd_union f = Some (Z.of_nat i) /\ enum_item (c_fields c) i = fd_py f.
Proof.
  intros C L. destruct (cc_tags_all _ C i L) as (f & I & U). exists f. split; [exact I|]. split; [exact U|].
  unfold enum_item. destruct (find (tag_is i) (rev (c_fields c))) as [g|] eqn:F.
  - apply find_some in F as (J & T). apply in_rev in J. unfold tag_is in T.
    destruct (fd_union g) as [d|] eqn:Ug; [|discriminate]. assert (d = Z.of_nat i) by lia. subst d.
    f_equal. eapply cc_tags_distinct; eassumption.
  - exfalso. assert (In f (rev (c_fields c))) by now apply -> in_rev.
    apply (find_none _ _ F) in H. unfold tag_is in H. rewrite U in H. lia.
Qed.

Lemma class_items_kinds c x : capnp_class c -> In x (class_items c) ->
  is_item c (it_name x) (it_attr x) /\
  (forall d, it_deco x = Some d -> In d [property_; staticmethod_; classmethod_]).
Proof.
  intros C I. unfold class_items in I.
  apply in_app_or in I as [I|I].
  { apply in_map_iff in I as (n & <- & I). cbn [it_name it_attr it_deco]. split; [|discriminate].
    apply ii_other. cbn in I |- *. intuition auto. }
  apply in_app_or in I as [I|I].
  { apply in_map_iff in I as (n & <- & I). split; [|discriminate]. now apply ii_child. }
  apply in_app_or in I as [I|I].
  { unfold union_items in I. destruct (c_count c) as [|n] eqn:Cn; [contradiction|].
    destruct I as [<-|[<-|I]]; cbn [it_name it_attr it_deco].
    - split; [|discriminate]. apply ii_other. cbn. tauto.
    - split; [|discriminate]. apply ii_other. cbn. tauto.
    - apply in_map_iff in I as (i & <- & I). cbn [it_name it_attr it_deco]. split; [|discriminate].
      apply in_seq in I. destruct (enum_item_spec c i C) as (f & J & U & ->); [lia|]. eapply ii_is; eassumption. }
  apply in_app_or in I as [I|I].
  { apply in_flat_map in I as (f & J & I). unfold field_items in I.
    destruct (fd_kind f) eqn:K; cbn [In] in I;
      repeat match type of I with _ \/ _ => destruct I as [I|I] end; try contradiction; subst x;
      cbn [it_name it_attr it_deco];
      (split; [|let d := fresh in let H := fresh in intros d H; try discriminate; injection H as <-; cbn; tauto]);
      first [now apply ii_prop|now apply ii_get|apply ii_has; [exact J|now left]|apply ii_has; [exact J|now right]
            |now apply ii_like|now apply ii_priv|idtac].
    all: apply ii_has; [exact J|]; unfold pointerish; rewrite K; tauto. }
  apply in_app_or in I as [I|I].
  { unfold ctor_items in I. destruct (c_group c); [contradiction|].
    destruct I as [<-|[<-|I]]; cbn [it_name it_attr it_deco].
    - split; [|intros d H; injection H as <-; cbn; tauto]. apply ii_other. cbn [In]. tauto.
    - split; [|discriminate]. apply ii_other. cbn [In]. tauto.
    - apply in_flat_map in I as (f & J & I). destruct (fd_union f) eqn:U; [|contradiction].
      destruct I as [<-|[]]. cbn [it_name it_attr it_deco].
      split; [|intros d H; injection H as <-; cbn; tauto]. apply ii_new; [exact J|congruence]. }
  apply in_app_or in I as [[<-|[]]|I].
  { split; [|discriminate]. apply ii_other. cbn [In]. tauto. }
  destruct (c_keyed c) eqn:K; [|contradiction]. destruct I as [<-|[]]. split; [|discriminate]. now apply ii_key.
Qed.

Lemma field_item_in c f x : In f (c_fields c) -> In x (field_items f) -> In x (class_items c).
Proof.
  intros I J. unfold class_items. do 3 (apply in_or_app; right). apply in_or_app; left.
  apply in_flat_map. eauto.
Qed.

(** *** two statements for the same name are the same *)
Lemma starts_ne p q a b : starts p a -> starts q b -> (forall x, p x = true -> q x = true -> False) -> a <> b.
Proof. intros (x & r & -> & P) (y & s & -> & Q) H E. injection E as -> _. eauto. Qed.

Lemma is_item_other c n a : capnp_class c -> no_clash c -> is_item c n a ->
  In n [lit "__capnpy_id__"; lit "__static_data_size__"; lit "__static_ptrs_size__"; lit "__tag__";
                     lit "__tag_offset__"; lit "__init__"; lit "shortrepr"; lit "_" ++ c_name c ++ lit "__new"] ->
  a = AOther n.
Proof.
  intros C N I J. assert (L : forall f, In f (c_fields c) -> exists x r, fd_py f = x :: r /\ is_lower x = true)
    by (intros f If; destruct (cc_lower _ C f If) as (x & r & E); eauto).
  assert (S1 : forall s, starts is_lower s -> s <> lit "shortrepr" -> s <> n).
  { intros s (x & r & -> & P) Ns E. subst n. cbn [In] in J.
    repeat (destruct J as [J|J]; [first [discriminate J|(injection J as <- _; discriminate P)|congruence]|]).
    contradiction. }
  destruct I as [n _|K|n I|f d I U|f I|f I K|f I K|f I K|f I K|f I U].
  - reflexivity.
  - reflexivity.
  - exfalso. destruct (cc_child _ C n I) as ((x & r & -> & P) & U).
    cbn [In] in J. repeat (destruct J as [J|J]; [first [(injection J as <- _; discriminate P)|(apply (proj2 (nc_repr _ N)); now rewrite J)]|]).
    contradiction.
  - exfalso. cbn [In] in J. repeat (destruct J as [J|J]; [discriminate J|]). contradiction.
  - exfalso. apply (S1 (fd_py f)); [apply (cc_lower _ C), I|apply (proj1 (nc_repr _ N)), I|reflexivity].
  - exfalso. cbn [In] in J. repeat (destruct J as [J|J]; [discriminate J|]). contradiction.
  - exfalso. cbn [In] in J. repeat (destruct J as [J|J]; [discriminate J|]). contradiction.
  - exfalso. destruct (L f I) as (x & r & E & P). rewrite E in J. cbn [capitalize] in J. unfold upper1 in J. rewrite P in J.
    unfold is_lower in P. cbn [In] in J.
    repeat (destruct J as [J|J]; [injection J as J _; lia|]). contradiction.
  - exfalso. destruct (L f I) as (x & r & E & P). rewrite E in J. cbn [In] in J.
    destruct (cc_name _ C) as (y & s & Ec & Py).
    repeat (destruct J as [J|J]; [first [discriminate J|(injection J as <- _; discriminate P)|idtac]|]).
    + rewrite Ec in J. injection J as <- _. unfold is_lower, is_upper in *. lia.
    + contradiction.
  - exfalso. cbn [In] in J. repeat (destruct J as [J|J]; [discriminate J|]). contradiction.
Qed.

Ltac lit_ne := match goal with H : _ = _ |- _ => discriminate H end.

Lemma is_item_fun c n a b : capnp_class c -> no_clash c -> is_item c n a -> is_item c n b -> a = b.
Proof.
  intros C N A B.
  assert (L : forall f, In f (c_fields c) -> exists x r, fd_py f = x :: r /\ is_lower x = true)
    by (intros f If; destruct (cc_lower _ C f If) as (x & r & E); eauto).
  assert (D : forall f g, In f (c_fields c) -> In g (c_fields c) -> fd_py f = fd_py g -> f = g) by apply (cc_distinct _ C).
  assert (Ch : forall m f (p : str), In m (c_children c) -> In f (c_fields c) -> In underscore p -> m = p ++ fd_py f -> False).
  { intros m f p I J U E. destruct (cc_child _ C m I) as (_ & Nu). apply Nu. rewrite E. apply in_or_app. now left. }
  assert (Un : forall p, In underscore (lit p) \/ ~ In underscore (lit p)) by (intros p; destruct (in_dec Z.eq_dec underscore (lit p)); auto).
  (* the names that start with an upper case letter, a lower case letter, an underscore *)
  assert (Cap : forall f, In f (c_fields c) -> exists x r, capitalize (fd_py f) = x :: r /\ is_upper x = true).
  { intros f I. destruct (L f I) as (x & r & -> & P). cbn [capitalize]. unfold upper1. rewrite P. eexists _, _.
    split; [reflexivity|]. unfold is_lower, is_upper in *. lia. }
  assert (F : forall n a b, is_item c n a -> is_item c n b ->
     match a with AOther _ => True | AChild _ => match b with AOther _ => True | _ => a = b end
     | _ => match b with AOther _ | AChild _ => True | _ => a = b end end).
  { clear n a b A B. intros n a b A B.
    destruct A as [n Jn|K|n I|f d I U|f I|f I K|f I K|f I K|f I K|f I U]; [exact Logic.I|exact Logic.I| | | | | | | |].
    - remember n as n' eqn:En in B. destruct B as [n' Jn|K|n' I'|g d' I' U'|g I'|g I' K'|g I' K'|g I' K'|g I' K'|g I' U'];
        [exact Logic.I|exact Logic.I|now subst| | | | | | |]; exfalso.
      + apply (Ch n g (lit "is_")); [exact I|exact I'|vm_compute; tauto|congruence].
      + apply (cc_child_field _ C n g I I'). congruence.
      + apply (Ch n g (lit "get_")); [exact I|exact I'|vm_compute; tauto|congruence].
      + apply (Ch n g (lit "has_")); [exact I|exact I'|vm_compute; tauto|congruence].
      + apply (nc_like_child _ N g n I' K' I). congruence.
      + apply (Ch n g (lit "_")); [exact I|exact I'|vm_compute; tauto|congruence].
      + apply (Ch n g (lit "new_")); [exact I|exact I'|vm_compute; tauto|congruence].
    - remember (lit "is_" ++ fd_py f) as n eqn:En. destruct B as [n Jn|K|n I'|g d' I' U'|g I'|g I' K'|g I' K'|g I' K'|g I' K'|g I' U'];
        [exact Logic.I|exact Logic.I|exact Logic.I| | | | | | |]; try discriminate En.
      + apply app_inv_head in En. rewrite (D g f I' I En) in U'. rewrite U in U'. injection U' as ->. reflexivity.
      + exfalso. apply (nc_is _ N g f I' I); congruence.
      + exfalso. destruct (Cap g I') as (x & r & E & P). rewrite E in En. injection En as -> _. discriminate P.
    - remember (fd_py f) as n eqn:En. destruct B as [n Jn|K|n I'|g d' I' U'|g I'|g I' K'|g I' K'|g I' K'|g I' K'|g I' U'];
        [exact Logic.I|exact Logic.I|exact Logic.I| | | | | | |].
      + exfalso. apply (nc_is _ N f g I I'); congruence.
      + f_equal. apply D; congruence.
      + exfalso. apply (nc_get _ N f g I I' K'); congruence.
      + exfalso. apply (nc_has _ N f g I I' K'); congruence.
      + exfalso. destruct (Cap g I') as (x & r & E & P). destruct (L f I) as (y & s & E2 & P2).
        rewrite E, E2 in En. injection En as -> _. unfold is_lower, is_upper in *. lia.
      + exfalso. destruct (L f I) as (y & s & E2 & P2). rewrite E2 in En. injection En as <- _. discriminate P2.
      + exfalso. apply (nc_new _ N f g I I'); congruence.
    - remember (lit "get_" ++ fd_py f) as n eqn:En. destruct B as [n Jn|K0|n I'|g d' I' U'|g I'|g I' K'|g I' K'|g I' K'|g I' K'|g I' U'];
        [exact Logic.I|exact Logic.I|exact Logic.I| | | | | | |]; try discriminate En.
      + exfalso. apply (nc_get _ N g f I' I K); congruence.
      + apply app_inv_head in En. f_equal. now apply D.
      + exfalso. destruct (Cap g I') as (x & r & E & P). rewrite E in En. injection En as -> _. discriminate P.
    - remember (lit "has_" ++ fd_py f) as n eqn:En. destruct B as [n Jn|K0|n I'|g d' I' U'|g I'|g I' K'|g I' K'|g I' K'|g I' K'|g I' U'];
        [exact Logic.I|exact Logic.I|exact Logic.I| | | | | | |]; try discriminate En.
      + exfalso. apply (nc_has _ N g f I' I K); congruence.
      + apply app_inv_head in En. f_equal. now apply D.
      + exfalso. destruct (Cap g I') as (x & r & E & P). rewrite E in En. injection En as -> _. discriminate P.
    - remember (capitalize (fd_py f)) as n eqn:En. destruct (Cap f I) as (x & r & E & P). rewrite E in En.
      destruct B as [n Jn|K0|n I'|g d' I' U'|g I'|g I' K'|g I' K'|g I' K'|g I' K'|g I' U'];
        [exact Logic.I|exact Logic.I|exact Logic.I| | | | | | |];
        try (exfalso; injection En as <- _; discriminate P).
      + exfalso. destruct (L g I') as (y & s & E2 & P2). rewrite E2 in En. injection En as -> _. unfold is_lower, is_upper in *. lia.
      + f_equal. apply (nc_like _ N f g); congruence.
    - remember (lit "_" ++ fd_py f) as n eqn:En. destruct B as [n Jn|K0|n I'|g d' I' U'|g I'|g I' K'|g I' K'|g I' K'|g I' K'|g I' U'];
        [exact Logic.I|exact Logic.I|exact Logic.I| | | | | | |]; try discriminate En.
      + exfalso. destruct (L g I') as (y & s & E2 & P2). rewrite E2 in En. injection En as -> _. discriminate P2.
      + exfalso. destruct (Cap g I') as (x & r & E & P). rewrite E in En. injection En as -> _. discriminate P.
      + apply app_inv_head in En. f_equal. now apply D.
    - remember (lit "new_" ++ fd_py f) as n eqn:En. destruct B as [n Jn|K0|n I'|g d' I' U'|g I'|g I' K'|g I' K'|g I' K'|g I' K'|g I' U'];
        [exact Logic.I|exact Logic.I|exact Logic.I| | | | | | |]; try discriminate En.
      + exfalso. apply (nc_new _ N g f I' I U); congruence.
      + exfalso. destruct (Cap g I') as (x & r & E & P). rewrite E in En. injection En as -> _. discriminate P.
      + apply app_inv_head in En. f_equal. now apply D. }
  assert (O : forall n m b, is_item c n (AOther m) -> is_item c n b -> b = AOther m).
  { clear n a b A B. intros n m b A B. inversion A as [n' Jn E1 E2|K E1 E2| | | | | | | |]; subst.
    - eapply is_item_other; eassumption.
    - remember (lit "_key") as k eqn:Ek. destruct B as [n Jn|K0|n I'|g d' I' U'|g I'|g I' K'|g I' K'|g I' K'|g I' K'|g I' U'];
        try discriminate Ek; try reflexivity.
      + exfalso. destruct (cc_child _ C n I') as ((x & r & -> & P) & U). injection Ek as -> _. discriminate P.
      + exfalso. destruct (L g I') as (y & s & E2 & P2). rewrite E2 in Ek. injection Ek as -> _. discriminate P2.
      + exfalso. destruct (Cap g I') as (x & r & E & P). rewrite E in Ek. injection Ek as -> _. discriminate P.
      + exfalso. apply (nc_key _ N K g I' K'). change (lit "_key") with (lit "_" ++ lit "key") in Ek.
        now apply app_inv_head in Ek. }
  pose proof (F n a b A B) as F1. pose proof (F n b a B A) as F2.
  destruct a; try (symmetry; eapply O; eassumption); destruct b; try (eapply O; eassumption); try assumption; try (symmetry; assumption).
Qed.

(** ** The theorem for classes *)
Lemma exec_class_items c : capnp_class c -> no_clash c ->
  exec_class [] (class_items c) = Ok (rev (map (fun x => (it_name x, it_attr x)) (class_items c))).
Proof.
  intros C N. rewrite exec_class_ok; [now rewrite app_nil_r|].
  intros d x I D. split; [reflexivity|]. intros y J E.
  destruct (class_items_kinds c x C I) as (_ & Dx). pose proof (Dx d D) as Id.
  destruct (nc_deco _ N d Id) as (Nf & Nch).
  destruct (class_items_kinds c y C J) as (K & _). rewrite E in K. clear -C Id Nf Nch K.
  assert (L : forall f, In f (c_fields c) -> exists x r, fd_py f = x :: r /\ is_lower x = true)
    by (intros f If; destruct (cc_lower _ C f If) as (x & r & Eq); eauto).
  remember (it_attr y) as a. remember d as n eqn:En in K.
  destruct K as [n Jn|K|n I'|g d' I' U'|g I'|g I' K'|g I' K'|g I' K'|g I' K'|g I' U'].
  - subst n. cbn [In] in Id, Jn. destruct Id as [<-|[<-|[<-|[]]]];
      repeat (destruct Jn as [Jn|Jn]; [discriminate Jn|]); contradiction.
  - destruct Id as [<-|[<-|[<-|[]]]]; discriminate En.
  - subst. contradiction.
  - destruct Id as [<-|[<-|[<-|[]]]]; discriminate En.
  - now apply (Nf g).
  - destruct Id as [<-|[<-|[<-|[]]]]; discriminate En.
  - destruct Id as [<-|[<-|[<-|[]]]]; discriminate En.
  - destruct (L g I') as (x0 & r & E2 & P). rewrite E2 in En. cbn [capitalize] in En. unfold upper1 in En. rewrite P in En.
    unfold is_lower in P. destruct Id as [<-|[<-|[<-|[]]]]; injection En as En _; lia.
  - destruct Id as [<-|[<-|[<-|[]]]]; discriminate En.
  - destruct Id as [<-|[<-|[<-|[]]]]; discriminate En.
Qed.

Lemma class_get c n a : capnp_class c -> no_clash c -> forall x, In x (class_items c) -> it_name x = n -> it_attr x = a ->
  get_attr (rev (map (fun x => (it_name x, it_attr x)) (class_items c))) n = Some a.
Proof.
  intros C N x I <- <-. set (l := rev _).
  assert (J : In (it_name x, it_attr x) l) by (unfold l; apply -> in_rev; apply (in_map (fun x => (it_name x, it_attr x))), I).
  destruct (get_attr_some _ _ _ J) as (b & E). rewrite E. f_equal. apply get_attr_in in E.
  unfold l in E. apply in_rev in E. apply in_map_iff in E as (y & Ey & Iy). injection Ey as E1 <-.
  destruct (class_items_kinds c y C Iy) as (Ky & _). destruct (class_items_kinds c x C I) as (Kx & _).
  rewrite E1 in Ky. eapply is_item_fun; eassumption.
Qed.

Theorem class_accessors c : capnp_class c -> no_clash c ->
  exists ns, exec_class [] (class_items c) = Ok ns /\
    (forall f, In f (c_fields c) ->
       get_attr ns (fd_py f) = Some (AProp f) /\
       (fd_kind f = KPointer -> get_attr ns (lit "get_" ++ fd_py f) = Some (AGet f)) /\
       (pointerish (fd_kind f) -> get_attr ns (lit "has_" ++ fd_py f) = Some (AHas f)) /\
       (fd_kind f = KGroup -> get_attr ns (capitalize (fd_py f)) = Some (ALike f)) /\
       (fd_kind f = KNullable -> get_attr ns (lit "_" ++ fd_py f) = Some (APriv f)) /\
       (forall d, fd_union f = Some d ->
          get_attr ns (lit "is_" ++ fd_py f) = Some (AIs d) /\
          (c_group c = false -> get_attr ns (lit "new_" ++ fd_py f) = Some (ANew f)))) /\
    (forall n, In n (c_children c) -> get_attr ns n = Some (AChild n)) /\
    get_attr ns (lit "shortrepr") = Some (AOther (lit "shortrepr")) /\
    (c_keyed c = true -> get_attr ns (lit "_key") = Some (AOther (lit "_key"))).
Proof.
  intros C N. eexists. split; [apply exec_class_items; assumption|].
  assert (G := fun n a => class_get c n a C N). split; [|split; [|split]].
  - intros f I. assert (FI := fun x => field_item_in c f x I). unfold field_items in FI.
    split.
    { eapply G; [apply FI; destruct (fd_kind f); cbn [In]; left; reflexivity|reflexivity|reflexivity]. }
    split.
    { intros K. rewrite K in FI. eapply G; [apply FI; cbn [In]; right; left; reflexivity|reflexivity|reflexivity]. }
    split.
    { intros [K|K]; rewrite K in FI.
      - eapply G; [apply FI; cbn [In]; right; right; left; reflexivity|reflexivity|reflexivity].
      - eapply G; [apply FI; cbn [In]; right; left; reflexivity|reflexivity|reflexivity]. }
    split.
    { intros K. rewrite K in FI. eapply G; [apply FI; cbn [In]; right; left; reflexivity|reflexivity|reflexivity]. }
    split.
    { intros K. rewrite K in FI. eapply G; [apply FI; cbn [In]; right; left; reflexivity|reflexivity|reflexivity]. }
    intros d U. split.
    + pose proof (cc_tags _ C f d I U) as R.
      destruct (enum_item_spec c (Z.to_nat d) C) as (g & Ig & Ug & Eg); [lia|].
      replace (Z.of_nat (Z.to_nat d)) with d in Ug by lia.
      assert (g = f) by (eapply cc_tags_distinct; eassumption). subst g.
      eapply (G _ _ (mkitem None (lit "is_" ++ fd_py f) (AIs d))); [|reflexivity|reflexivity].
      unfold class_items. do 2 (apply in_or_app; right). apply in_or_app; left. unfold union_items.
      destruct (c_count c) as [|k] eqn:Ck; [lia|]. right; right. apply in_map_iff. exists (Z.to_nat d).
      split; [rewrite Eg; f_equal; f_equal; lia|]. apply in_seq. lia.
    + intros Gc. eapply (G _ _ (mkitem (Some classmethod_) (lit "new_" ++ fd_py f) (ANew f))); [|reflexivity|reflexivity].
      unfold class_items. do 4 (apply in_or_app; right). apply in_or_app; left. unfold ctor_items. rewrite Gc.
      right; right. apply in_flat_map. exists f. split; [exact I|]. rewrite U. now left.
  - intros n I. eapply (G _ _ (mkitem None n (AChild n))); [|reflexivity|reflexivity].
    unfold class_items. apply in_or_app; right. apply in_or_app; left.
    apply (in_map (fun n => mkitem None n (AChild n))), I.
  - eapply (G _ _ (mkitem None (lit "shortrepr") (AOther (lit "shortrepr")))); [|reflexivity|reflexivity].
    unfold class_items. do 5 (apply in_or_app; right). apply in_or_app; left. now left.
  - intros K. eapply (G _ _ (mkitem None (lit "_key") (AOther (lit "_key")))); [|reflexivity|reflexivity].
    unfold class_items. do 6 (apply in_or_app; right). rewrite K. now left.
Qed.

(** *** what the class hides of its base class *)
Lemma class_get_iff c n : capnp_class c -> no_clash c ->
  get_attr (rev (map (fun x => (it_name x, it_attr x)) (class_items c))) n <> None ->
  exists a, is_item c n a.
Proof.
  intros C N H. destruct (get_attr _ n) as [a|] eqn:E; [|congruence]. apply get_attr_in in E. apply in_rev in E.
  apply in_map_iff in E as (y & Ey & Iy). injection Ey as <- <-. exists (it_attr y).
  now apply class_items_kinds.
Qed.
Definition prefixed (n : str) : Prop :=
  exists p r, In p [lit "get_"; lit "has_"; lit "is_"; lit "new_"] /\ n = p ++ r.
Theorem class_hides c n : capnp_class c -> no_clash c -> starts is_lower n -> ~ prefixed n -> n <> lit "shortrepr" ->
  forall ns, exec_class [] (class_items c) = Ok ns ->
  get_attr ns n <> None <-> (exists f, In f (c_fields c) /\ fd_py f = n) \/ In n (c_children c).
Proof.
  intros C N S P R ns H. pose proof (class_accessors c C N) as (ns' & E & A & B & _).
  assert (ns' = ns) by congruence. subst ns'. split.
  - rewrite exec_class_items in H by assumption. injection H as <-. intros G.
    destruct (class_get_iff c n C N G) as (a & I).
    destruct S as (x & r & En & Px).
    destruct I as [n Jn|K|n I'|g d' I' U'|g I'|g I' K'|g I' K'|g I' K'|g I' K'|g I' U'].
    + subst n. cbn [In] in Jn.
      repeat (destruct Jn as [Jn|Jn]; [first [congruence|injection Jn as <- _; discriminate Px]|]). contradiction.
    + injection En as <- _. discriminate Px.
    + now right.
    + exfalso. apply P. exists (lit "is_"), (fd_py g). cbn [In]. tauto.
    + left. eauto.
    + exfalso. apply P. exists (lit "get_"), (fd_py g). cbn [In]. tauto.
    + exfalso. apply P. exists (lit "has_"), (fd_py g). cbn [In]. tauto.
    + exfalso. destruct (cc_lower _ C g I') as (y & s & E2 & Py). rewrite E2 in En. cbn [capitalize] in En.
      unfold upper1 in En. rewrite Py in En. injection En as <- _. unfold is_lower in *. lia.
    + injection En as <- _. discriminate Px.
    + exfalso. apply P. exists (lit "new_"), (fd_py g). cbn [In]. tauto.
  - intros [(f & I & <-)|I].
    + destruct (A f I) as (-> & _). discriminate.
    + rewrite (B n I). discriminate.
Qed.
(** names with one underscore, as those the base classes use inside *)
Theorem class_hides_private c n : capnp_class c -> no_clash c -> starts is_lower n -> n <> lit "key" ->
  forall ns, exec_class [] (class_items c) = Ok ns ->
  get_attr ns (lit "_" ++ n) <> None <-> exists f, In f (c_fields c) /\ fd_kind f = KNullable /\ fd_py f = n.
Proof.
  intros C N S R ns H. pose proof (class_accessors c C N) as (ns' & E & A & B & _).
  assert (ns' = ns) by congruence. subst ns'. split.
  - rewrite exec_class_items in H by assumption. injection H as <-. intros G.
    destruct (class_get_iff c (lit "_" ++ n) C N G) as (a & I).
    destruct S as (x & r & En & Px). remember (lit "_" ++ n) as m eqn:Em.
    destruct I as [m Jn|K|m I'|g d' I' U'|g I'|g I' K'|g I' K'|g I' K'|g I' K'|g I' U']; try discriminate Em.
    + exfalso. subst m n. cbn [In] in Jn. destruct (cc_name _ C) as (y & s & Ec & Py).
      repeat (destruct Jn as [Jn|Jn]; [first [discriminate Jn|injection Jn as <- _; discriminate Px|idtac]|]).
      * rewrite Ec in Jn. injection Jn as -> _. unfold is_lower, is_upper in *. lia.
      * contradiction.
    + exfalso. apply R. change (lit "_key") with (lit "_" ++ lit "key") in Em. now apply app_inv_head in Em.
    + exfalso. destruct (cc_child _ C m I') as ((y & s & E2 & Py) & _). subst m. injection E2 as <- _. discriminate Py.
    + exfalso. destruct (cc_lower _ C g I') as (y & s & E2 & Py). rewrite E2 in Em. injection Em as -> _. discriminate Py.
    + exfalso. destruct (cc_lower _ C g I') as (y & s & E2 & Py). rewrite E2 in Em. cbn [capitalize] in Em.
      unfold upper1 in Em. rewrite Py in Em. injection Em as Em _. unfold is_lower in *. lia.
    + apply app_inv_head in Em. subst n. eauto.
  - intros (f & I & K & <-). destruct (A f I) as (_ & _ & _ & _ & Pr & _). rewrite (Pr K). discriminate.
Qed.

(** ** The names of the module *)
Lemma split_app sep a b : Loader.split sep (a ++ sep :: b) = Loader.split sep a ++ Loader.split sep b.
Proof.
  induction a as [|c a IH]; cbn [app Loader.split]; [now rewrite Z.eqb_refl|].
  destruct (c =? sep) eqn:E; [now rewrite IH|]. rewrite IH.
  destruct (Loader.split sep a) as [|x l] eqn:Ea; [|reflexivity].
  destruct a as [|z a]; cbn [Loader.split] in Ea; [discriminate|]. destruct (z =? sep); [discriminate|].
  destruct (Loader.split sep a); discriminate.
Qed.
Lemma split_one sep a : ~ In sep a -> Loader.split sep a = [a].
Proof.
  induction a as [|c a IH]; intros N; [reflexivity|]. cbn [Loader.split].
  destruct (c =? sep) eqn:E; [exfalso; apply N; left; lia|]. rewrite IH; [reflexivity|]. intros I. apply N. now right.
Qed.
Lemma split_join p : p <> [] -> Forall capnp_id p -> Loader.split underscore (join_ p) = p.
Proof.
  induction p as [|x p IH]; [congruence|]. intros _ F. inversion F as [|y l (Nx & Ux) Fp]. subst.
  destruct p as [|z p]; [cbn [join_]; now apply split_one|].
  change (join_ (x :: z :: p)) with (x ++ underscore :: join_ (z :: p)).
  rewrite split_app, split_one, IH; [reflexivity|discriminate|exact Fp|exact Ux].
Qed.
Theorem compile_name_inj n m : nd_path n <> [] -> Forall capnp_id (nd_path n) ->
  nd_path m <> [] -> Forall capnp_id (nd_path m) -> compile_name n = compile_name m -> nd_path n = nd_path m.
Proof.
  intros N1 F1 N2 F2 E. unfold compile_name in E.
  rewrite <- (split_join (nd_path n)), <- (split_join (nd_path m)) by assumption. now rewrite E.
Qed.

Definition tag_tail : list str := [[]; lit "tag"; []; []].
Definition item_tail : list str := [lit "list"; lit "item"; lit "type"].
Lemma split_tag p : p <> [] -> Forall capnp_id p -> Loader.split underscore (join_ p ++ lit "__tag__") = p ++ tag_tail.
Proof.
  intros N F. change (lit "__tag__") with (underscore :: lit "_tag__"). rewrite split_app, split_join by assumption. reflexivity.
Qed.
Lemma split_item p : p <> [] -> Forall capnp_id p ->
  Loader.split underscore (lit "_" ++ join_ p ++ lit "_list_item_type") = [] :: p ++ item_tail.
Proof.
  intros N F. change (lit "_" ++ join_ p ++ lit "_list_item_type") with ([] ++ underscore :: (join_ p ++ underscore :: lit "list_item_type")).
  rewrite !split_app, split_join by assumption. reflexivity.
Qed.

(** what a definition is, from the pieces of its name *)
Definition pieces (x : str) (b : binding) : Prop :=
  match b with
  | BClass n => (exists u, nd_kind n = NStruct u \/ nd_kind n = NGroup u \/ nd_kind n = NEnum) /\ Loader.split underscore x = nd_path n
  | BTag n => Loader.split underscore x = nd_path n ++ tag_tail
  | BItem n => Loader.split underscore x = [] :: nd_path n ++ item_tail
  | BConst n => nd_kind n = NConst /\ Loader.split underscore x = nd_path n
  | BAnnotation n => nd_kind n = NAnnotation /\ Loader.split underscore x = nd_path n
  end.
Definition node_of (b : binding) : ndesc :=
  match b with BClass n | BTag n | BItem n | BConst n | BAnnotation n => n end.

Lemma node_defs_pieces ns n x b : capnp_file ns -> annotations_on_top ns -> In n ns -> In (x, b) (node_defs n) ->
  node_of b = n /\ pieces x b.
Proof.
  intros C T I J. destruct (cf_ids _ C n I) as (Np & Fp). unfold node_defs in J. destruct (nd_kind n) eqn:K.
  1,2: destruct J as [E|J]; [injection E as <- <-; split; [reflexivity|]; cbn [pieces]; split; [eauto|now apply split_join]|];
       apply in_app_or in J as [J|[E|[]]];
       [destruct union; [|contradiction]; destruct J as [E|[]]; injection E as <- <-; split; [reflexivity|]; now apply split_tag
       |injection E as <- <-; split; [reflexivity|]; now apply split_item].
  - destruct J as [E|[E|[]]]; injection E as <- <-; (split; [reflexivity|]); cbn [pieces]; [split; [exists true; auto|now apply split_join]|now apply split_item].
  - destruct (nd_path n) as [|x0 [|]] eqn:P; [contradiction| |contradiction]. destruct J as [E|[]]. injection E as <- <-.
    split; [reflexivity|]. cbn [pieces]. rewrite P. split; [exact K|]. inversion Fp as [|y l (Nx & Ux) _]. now apply split_one.
  - destruct J as [E|[]]. injection E as <- <-. split; [reflexivity|]. cbn [pieces]. split; [exact K|].
    destruct (T n I K) as (x0 & P). unfold shortname. rewrite P in *. cbn [last]. inversion Fp as [|y l (Nx & Ux) _]. now apply split_one.
Qed.

Lemma ids_no_empty p : Forall capnp_id p -> ~ In [] p.
Proof. intros F I. rewrite Forall_forall in F. destruct (F _ I) as (N & _). congruence. Qed.

Lemma pieces_fun ns x b b' : capnp_file ns -> In (node_of b) ns -> In (node_of b') ns -> pieces x b -> pieces x b' -> b = b'.
Proof.
  intros C I I' P P'.
  assert (Id : forall n, In n ns -> nd_path n <> [] /\ ~ In [] (nd_path n)).
  { intros n J. destruct (cf_ids _ C n J) as (A & B). split; [exact A|now apply ids_no_empty]. }
  assert (D : forall n m, In n ns -> In m ns -> nd_path n = nd_path m -> n = m) by apply (cf_distinct _ C).
  assert (T1 : forall n m l, In n ns -> In m ns -> nd_path n = nd_path m ++ [] :: l -> False).
  { intros n m l J J' E. destruct (Id n J) as (_ & N). apply N. rewrite E. apply in_or_app. right. now left. }
  assert (T2 : forall n l, In n ns -> nd_path n = [] :: l -> False).
  { intros n l J E. destruct (Id n J) as (_ & N). apply N. rewrite E. now left. }
  assert (T3 : forall n m l l', In n ns -> nd_path n ++ l = [] :: nd_path m ++ l' -> False).
  { intros n m l l' J E. destruct (Id n J) as (A & N). destruct (nd_path n) as [|z r]; [congruence|].
    injection E as -> _. apply N. now left. }
  destruct b as [n|n|n|n|n], b' as [m|m|m|m|m]; cbn [pieces node_of] in *;
    repeat match goal with H : _ /\ _ |- _ => destruct H end;
    repeat match goal with H : exists _, _ |- _ => destruct H as [? [?|[?|?]]] end;
    try (exfalso; first [eapply (T1 n m); [exact I|exact I'|etransitivity; [symmetry; eassumption|eassumption]]
                        |eapply (T1 m n); [exact I'|exact I|etransitivity; [symmetry; eassumption|eassumption]]
                        |eapply (T2 n); [exact I|etransitivity; [symmetry; eassumption|eassumption]]
                        |eapply (T2 m); [exact I'|etransitivity; [symmetry; eassumption|eassumption]]
                        |eapply (T3 n m); [exact I|etransitivity; [symmetry; eassumption|eassumption]]
                        |eapply (T3 m n); [exact I'|etransitivity; [symmetry; eassumption|eassumption]]]; fail);
    try (f_equal; apply D; [exact I|exact I'|];
         first [congruence
               |apply (app_inv_tail tag_tail); congruence
               |apply (app_inv_tail item_tail); congruence]; fail);
    exfalso; assert (n = m) by (apply D; [exact I|exact I'|congruence]); subst m; congruence.
Qed.

Theorem module_names ns : capnp_file ns -> annotations_on_top ns ->
  forall x b, get_name (module_defs ns) x = Some b <-> In (x, b) (module_defs ns).
Proof.
  intros C T x b. unfold get_name.
  assert (U : forall b', In (x, b) (module_defs ns) -> In (x, b') (module_defs ns) -> b = b').
  { intros b' J J'. apply in_flat_map in J as (n & I & J). apply in_flat_map in J' as (m & I' & J').
    destruct (node_defs_pieces ns n x b C T I J) as (E & P). destruct (node_defs_pieces ns m x b' C T I' J') as (E' & P').
    eapply pieces_fun; [exact C|rewrite E; exact I|rewrite E'; exact I'|exact P|exact P']. }
  destruct (find (fun e => str_eqb (fst e) x) (rev (module_defs ns))) as [[y b']|] eqn:F.
  - apply find_some in F as (J & Q). apply str_eqb_spec in Q. cbn [fst] in Q. subst y. apply in_rev in J. cbn [snd]. split.
    + intros E. injection E as <-. exact J.
    + intros J0. f_equal. symmetry. now apply U.
  - split; [discriminate|]. intros J. exfalso. apply in_rev in J. apply (find_none _ _ F) in J. cbn [fst] in J.
    rewrite str_eqb_refl' in J. discriminate.
Qed.

(** the names the module itself needs (its imports from capnpy, the imported
    schemas, the reflection data) start with an underscore *)
Theorem module_reserved ns x : capnp_file ns -> annotations_on_top ns ->
  starts (fun c => c =? underscore) x -> ~ (exists y, x = y ++ lit "_list_item_type") ->
  get_name (module_defs ns) x = None.
Proof.
  intros C T (c & r & -> & E) Ny. apply Z.eqb_eq in E. subst c.
  destruct (get_name (module_defs ns) (underscore :: r)) as [b|] eqn:G; [|reflexivity]. exfalso.
  apply module_names in G; [|exact C|exact T]. apply in_flat_map in G as (n & I & J).
  pose proof (cf_ids _ C n I) as (Np & Fp).
  destruct (node_defs_pieces ns n _ b C T I J) as (En & P).
  assert (H0 : forall l, Loader.split underscore (underscore :: r) = nd_path n ++ l -> False).
  { intros l E. cbn [Loader.split] in E. rewrite Z.eqb_refl in E. destruct (nd_path n) as [|z p]; [congruence|].
    injection E as <- _. inversion Fp as [|y l' (N0 & _)]. congruence. }
  assert (H1 : Loader.split underscore (underscore :: r) = nd_path n -> False)
    by (intros E; apply (H0 []); rewrite app_nil_r; exact E).
  destruct b as [m|m|m|m|m]; cbn [node_of] in En; subst m; cbn [pieces] in P;
    [now apply H1, P|now apply (H0 tag_tail)| |now apply H1, P|now apply H1, P].
  unfold node_defs in J. apply Ny. destruct (nd_kind n).
  1,2: destruct J as [E|J]; [discriminate|]; apply in_app_or in J as [J|[E|[]]];
       [destruct union; [destruct J as [E|[]]; discriminate|contradiction]|];
       injection E as <-; exists (underscore :: compile_name n); cbn [app]; reflexivity.
  - destruct J as [E|[E|[]]]; [discriminate|]. injection E as <-. exists (underscore :: compile_name n). reflexivity.
  - destruct (nd_path n) as [|y [|]]; [contradiction| |contradiction]. destruct J as [E|[]]. discriminate.
  - destruct J as [E|[]]. discriminate.
Qed.

(** ** What goes wrong *)
(** a field called property before any other field: the module does not load *)
Lemma exec_class_err l : forall ns, exec_class ns l = Err TypeError \/ exists r, exec_class ns l = Ok r.
Proof.
  induction l as [|x r IH]; intros ns; cbn [exec_class]; [eauto|].
  destruct (it_deco x) as [d|]; [destruct (get_attr ns d); [now left|]|]; apply IH.
Qed.
Lemma exec_class_bound l : forall ns d x, In x l -> it_deco x = Some d -> get_attr ns d <> None ->
  exec_class ns l = Err TypeError.
Proof.
  induction l as [|y r IH]; intros ns d x I D B; [contradiction|]. cbn [exec_class].
  assert (B' : get_attr ((it_name y, it_attr y) :: ns) d <> None).
  { cbn [get_attr]. destruct (str_eqb (it_name y) d); [discriminate|exact B]. }
  destruct I as [->|I].
  - rewrite D. destruct (get_attr ns d); [reflexivity|congruence].
  - destruct (it_deco y) as [d'|]; [destruct (get_attr ns d'); [reflexivity|]|]; eapply IH; eassumption.
Qed.
Lemma exec_class_app l1 l2 : forall ns,
  exec_class ns (l1 ++ l2) = match exec_class ns l1 with Ok ns' => exec_class ns' l2 | Err e => Err e end.
Proof.
  induction l1 as [|x r IH]; intros ns; [reflexivity|]. cbn [app exec_class].
  destruct (it_deco x) as [d|]; [destruct (get_attr ns d); [reflexivity|]|]; apply IH.
Qed.
Theorem class_property_field c l1 f l2 : c_fields c = l1 ++ f :: l2 -> fd_py f = property_ -> l2 <> [] ->
  exec_class [] (class_items c) = Err TypeError.
Proof.
  intros E Pf N. unfold class_items. rewrite E, flat_map_app. cbn [flat_map].
  destruct l2 as [|g l2]; [congruence|]. cbn [flat_map].
  set (A := map _ [_; _; _]). set (B := map _ (c_children c)). set (U := union_items c). set (F1 := flat_map field_items l1).
  set (R := ctor_items c ++ _). set (F2 := flat_map field_items l2).
  assert (Hf : exists y ys, field_items f = y :: ys /\ it_name y = property_ /\ it_deco y = Some property_).
  { unfold field_items. destruct (fd_kind f); eexists _, _; (split; [reflexivity|]); split; try exact Pf; reflexivity. }
  destruct Hf as (y & ys & -> & Ny & Dy).
  assert (Hg : exists z zs, field_items g = z :: zs /\ it_deco z = Some property_).
  { unfold field_items. destruct (fd_kind g); eexists _, _; split; reflexivity. }
  destruct Hg as (z & zs & -> & Dz).
  assert (Eq : A ++ B ++ U ++ (F1 ++ (y :: ys) ++ (z :: zs) ++ F2) ++ R =
     (A ++ B ++ U ++ F1 ++ [y]) ++ (ys ++ (z :: zs) ++ F2 ++ R)).
  { clearbody A B U F1 R F2. now rewrite !app_assoc, <- !app_assoc. }
  rewrite Eq.
  rewrite exec_class_app.
  destruct (exec_class_err (A ++ B ++ U ++ F1 ++ [y]) []) as [->|(ns & En)]; [reflexivity|]. rewrite En.
  apply (exec_class_bound _ _ property_ z).
  - apply in_or_app. right. now left.
  - exact Dz.
  - rewrite !app_assoc, exec_class_app in En.
    destruct (exec_class [] (((A ++ B) ++ U) ++ F1)) as [ns'|]; [|discriminate]. cbn [exec_class] in En.
    rewrite Dy in En. destruct (get_attr ns' property_); [discriminate|]. injection En as <-.
    cbn [get_attr]. rewrite Ny, str_eqb_refl'. discriminate.
Qed.

(** ** Keywords: what the names of the module and of its classes may not be *)
(** keyword.kwlist of Python 3.7 and later *)
Definition kwlist3 : list str := map lit
  ["False"; "None"; "True"; "and"; "as"; "assert"; "async"; "await"; "break"; "class"; "continue"; "def"; "del";
   "elif"; "else"; "except"; "finally"; "for"; "from"; "global"; "if"; "import"; "in"; "is"; "lambda"; "nonlocal";
   "not"; "or"; "pass"; "raise"; "return"; "try"; "while"; "with"; "yield"]%string.
Lemma kw_no_underscore n : In n kwlist3 -> ~ In underscore n.
Proof.
  intros I J. assert (F : forallb (fun k => negb (existsb (fun c => c =? underscore) k)) kwlist3 = true) by reflexivity.
  rewrite forallb_forall in F. specialize (F _ I). apply negb_true_iff in F.
  assert (existsb (fun c => c =? underscore) n = true); [|congruence].
  apply existsb_exists. exists underscore. split; [exact J|reflexivity].
Qed.
Theorem class_keywords c : capnp_class c -> (forall f, In f (c_fields c) -> ~ In (fd_py f) kwlist3) ->
  (forall x, In x (class_items c) -> ~ In (it_name x) kwlist3) <->
  (forall n, In n (c_children c) -> ~ In n kwlist3) /\
  (forall f, In f (c_fields c) -> fd_kind f = KGroup -> ~ In (capitalize (fd_py f)) kwlist3).
Proof.
  intros C F. split.
  - intros H. split.
    + intros n I. apply (H (mkitem None n (AChild n))). unfold class_items. apply in_or_app; right. apply in_or_app; left.
      apply (in_map (fun n => mkitem None n (AChild n))), I.
    + intros f I K. apply (H (mkitem (Some staticmethod_) (capitalize (fd_py f)) (ALike f))).
      apply (field_item_in c f); [exact I|]. unfold field_items. rewrite K. right. now left.
  - intros (Hc & Hg) x I J. destruct (class_items_kinds c x C I) as (K & _).
    assert (Us : forall p s, In underscore p -> In (p ++ s) kwlist3 -> False).
    { intros p s U L. apply (kw_no_underscore _ L). apply in_or_app. now left. }
    remember (it_name x) as m eqn:Em. remember (it_attr x) as a.
    destruct K as [n Jn|K|n I'|g d' I' U'|g I'|g I' K'|g I' K'|g I' K'|g I' K'|g I' U'].
    + cbn [In] in Jn.
      repeat (destruct Jn as [<-|Jn]; [revert J; first [apply Us; vm_compute; tauto|vm_compute; intuition discriminate|
        intros J; apply (kw_no_underscore _ J); vm_compute; tauto]|]). contradiction.
    + apply (kw_no_underscore _ J). vm_compute. tauto.
    + now apply (Hc n I').
    + revert J. apply Us. vm_compute. tauto.
    + now apply (F g I').
    + revert J. apply Us. vm_compute. tauto.
    + revert J. apply Us. vm_compute. tauto.
    + now apply (Hg g I' K').
    + revert J. apply Us. vm_compute. tauto.
    + revert J. apply Us. vm_compute. tauto.
Qed.
