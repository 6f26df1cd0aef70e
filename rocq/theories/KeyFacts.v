(** Facts about equality and hashing of structs with a key. *)
From Coq Require Import QArith.QArith_base QArith.Qreduction.
From Verif Require Import Base Spec BaseFacts Ptr Hash HashFacts Key.
Local Open Scope Z_scope.

(** the local fixpoints of [py_eq], [py_hash] and [keyed], named *)
Fixpoint eq_items (n : nat) (x y : list kv) : res bool :=
  match x, y with
  | [], [] => Ok true
  | u :: x', w :: y' => do r <- py_eq n u w; if r then eq_items n x' y' else Ok false
  | _, _ => Ok false
  end.
Fixpoint keyed_all (l : list kv) : Prop :=
  match l with [] => True | y :: r => keyed y /\ keyed_all r end.
Definition lmax (l : list kv) : nat := fold_right (fun y m => Nat.max (kdepth y) m) O l.

Lemma py_eq_tuple n x y : py_eq (S n) (KTuple x) (KTuple y) = eq_items n x y.
Proof.
  cbn [py_eq]. revert y. induction x as [|u x IH]; intros [|w y]; try reflexivity.
  cbn [eq_items]. destruct (py_eq n u w) as [[|]|]; cbn [bind]; try reflexivity. apply IH.
Qed.

Lemma beq_spec a b : beq a b = true <-> a = b.
Proof. unfold beq. destruct (list_eq_dec _ a b); split; congruence. Qed.
Lemma ueq_spec a b : ueq a b = true <-> a = b.
Proof. unfold ueq. destruct (list_eq_dec _ a b); split; congruence. Qed.

Definition scalar (x : kv) : Prop := match x with KTuple _ | KStruct _ | KNoKey | KList _ _ _ _ | KFloat FNan => False | _ => True end.

(** ** Numbers *)
Lemma Qred_inject z : Qred (inject_Z z) = inject_Z z.
Proof.
  unfold Qred, inject_Z. pose proof (Z.ggcd_gcd z 1) as G. pose proof (Z.ggcd_correct_divisors z 1) as D.
  destruct (Z.ggcd z 1) as (g & aa & bb). cbn [fst] in G. rewrite Z.gcd_1_r in G. subst g. cbn [snd]. destruct D as (D1 & D2).
  rewrite Z.mul_1_l in D1, D2. subst. reflexivity.
Qed.
Lemma Qred_iff p q : Qred p = Qred q <-> Qeq p q.
Proof.
  split; [|apply Qred_complete]. intros E. rewrite <- (Qred_correct p), <- (Qred_correct q), E. reflexivity.
Qed.
Lemma dyadic_int z : dyadic z 0 = inject_Z z.
Proof. unfold dyadic. cbn [Z.leb Z.compare]. now rewrite Z.pow_0_r, Z.mul_1_r. Qed.
Lemma float_eq_num m e m' e' : float_eq (FNum m e) (FNum m' e') = true <-> Qred (dyadic m e) = Qred (dyadic m' e').
Proof. cbn [float_eq]. rewrite Qred_iff. apply Qeq_bool_iff. Qed.
Lemma float_eq_int m e z : float_eq (FNum m e) (FNum z 0) = true <-> Qred (dyadic m e) = inject_Z z.
Proof. rewrite float_eq_num, dyadic_int, Qred_inject. reflexivity. Qed.

(** the numerator and the denominator of m * 2^e *)
Lemma dyadic_frac m e : Qnum (dyadic m e) = m * 2 ^ Z.max 0 e /\ Zpos (Qden (dyadic m e)) = 2 ^ Z.max 0 (- e).
Proof.
  unfold dyadic. destruct (Z.leb_spec 0 e) as [H|H]; cbn [Qnum Qden inject_Z].
  - rewrite !Z.max_r, (Z.max_l 0 (- e)) by lia. split; reflexivity.
  - rewrite (Z.max_l 0 e), (Z.max_r 0 (- e)) by lia. rewrite Z.pow_0_r, Z.mul_1_r. split; [reflexivity|].
    apply Z2Pos.id. apply Z.pow_pos_nonneg; lia.
Qed.
Definition E61 (k : Z) : Z := 2 ^ (k mod 61).
Definition P61 : Z := 2 ^ 61 - 1.
Lemma P61_pos : 0 < P61.
Proof. unfold P61. lia. Qed.
Lemma pow61 q : 0 <= q -> 2 ^ (61 * q) mod P61 = 1.
Proof.
  intros H. rewrite Z.pow_mul_r by lia. pattern q. apply natlike_ind; [reflexivity| |exact H].
  intros x Hx IH. rewrite Z.pow_succ_r by exact Hx. rewrite Z.mul_mod by (unfold P61; lia). rewrite IH. reflexivity.
Qed.
Lemma pow_E61 k : 0 <= k -> 2 ^ k mod P61 = E61 k mod P61.
Proof.
  intros H. unfold E61. rewrite (Z.div_mod k 61) at 1 by lia.
  assert (0 <= k / 61) by (apply Z.div_pos; lia). assert (0 <= k mod 61 < 61) by (apply Z.mod_pos_bound; lia).
  rewrite Z.pow_add_r by lia. rewrite Z.mul_mod by (unfold P61; lia). rewrite pow61 by assumption.
  rewrite Z.mul_1_l, Z.mod_mod by (unfold P61; lia). reflexivity.
Qed.
Lemma E61_add a b : (E61 a * E61 b) mod P61 = E61 (a + b) mod P61.
Proof.
  unfold E61. assert (0 <= a mod 61 < 61) by (apply Z.mod_pos_bound; lia). assert (0 <= b mod 61 < 61) by (apply Z.mod_pos_bound; lia).
  rewrite <- Z.pow_add_r by lia. rewrite pow_E61 by lia. unfold E61. now rewrite <- Z.add_mod by lia.
Qed.
Lemma dyadic_hash m e m' e' : Qeq (dyadic m e) (dyadic m' e') -> py_hash_float (FNum m e) = py_hash_float (FNum m' e').
Proof.
  unfold Qeq. destruct (dyadic_frac m e) as (-> & ->). destruct (dyadic_frac m' e') as (-> & ->). intros C.
  set (a := Z.max 0 e) in *. set (b := Z.max 0 (- e)) in *. set (a' := Z.max 0 e') in *. set (b' := Z.max 0 (- e')) in *.
  assert (Pa : 0 <= a /\ 0 <= b /\ 0 <= a' /\ 0 <= b' /\ a - b = e /\ a' - b' = e') by (unfold a, b, a', b'; lia).
  clearbody a b a' b'. destruct Pa as (Pa & Pb & Pa' & Pb' & Ee & Ee').
  rewrite <- !Z.mul_assoc, <- !Z.pow_add_r in C by lia.
  assert (Q1 : 0 < 2 ^ (a + b')) by (apply Z.pow_pos_nonneg; lia). assert (Q2 : 0 < 2 ^ (a' + b)) by (apply Z.pow_pos_nonneg; lia).
  assert (Sg : Z.sgn m = Z.sgn m').
  { apply (f_equal Z.sgn) in C. rewrite !Z.sgn_mul in C. rewrite (Z.sgn_pos _ Q1), (Z.sgn_pos _ Q2) in C. lia. }
  assert (Ab : Z.abs m * 2 ^ (a + b') = Z.abs m' * 2 ^ (a' + b)).
  { apply (f_equal Z.abs) in C. rewrite !Z.abs_mul in C. rewrite (Z.abs_eq (2 ^ (a + b'))), (Z.abs_eq (2 ^ (a' + b))) in C by lia. exact C. }
  cbn [py_hash_float]. rewrite Sg. change py_hash_modulus with P61.
  assert (M : (Z.abs m * 2 ^ (e mod 61)) mod P61 = (Z.abs m' * 2 ^ (e' mod 61)) mod P61).
  { fold (E61 e). fold (E61 e'). pose proof P61_pos as PP.
    assert (G : forall n x y, 0 <= x -> (n * E61 (x + y)) mod P61 = ((n * 2 ^ x) mod P61 * (E61 y mod P61)) mod P61).
    { intros n x y Hx. rewrite <- Z.mul_mod_idemp_r, <- E61_add by lia. rewrite <- (Z.mul_mod_idemp_l (E61 x)) by lia. rewrite <- pow_E61 by exact Hx.
      rewrite Z.mul_mod_idemp_l by lia. rewrite Z.mul_mod_idemp_r by lia. rewrite Z.mul_assoc. now rewrite Z.mul_mod by lia. }
    replace e with ((a + b') + (- b' - b)) by lia. replace e' with ((a' + b) + (- b' - b)) by lia.
    rewrite !G by lia. now rewrite Ab. }
  rewrite M. reflexivity.
Qed.
Lemma py_hash_float_int z : py_hash_float (FNum z 0) = py_hash_int z.
Proof. cbn [py_hash_float]. change (0 mod 61) with 0. now rewrite Z.pow_0_r, Z.mul_1_r. Qed.

Lemma scalar_eq_spec a b : scalar a -> scalar b -> (scalar_eq a b = true <-> norm a = norm b).
Proof.
  destruct a as [|?|?|[|?|? ?]|?|?|?|?| |? ? ? ?], b as [|?|?|[|?|? ?]|?|?|?|?| |? ? ? ?]; intros SA SB; try contradiction; cbn [scalar_eq norm];
    try (split; [discriminate|discriminate]); try (split; reflexivity);
    try (split; [reflexivity|reflexivity]);
    rewrite ?Z.eqb_eq, ?beq_spec, ?ueq_spec, ?float_eq_num, ?dyadic_int, ?Qred_inject.
  all: try (split; [intros ->; reflexivity|intros E; first [now injection E|congruence]]).
  all: try (cbn [float_eq]; repeat match goal with x : bool |- _ => destruct x end; cbn; split; try congruence; intros E; now injection E).
  all: try (split; [intros ->; reflexivity|intros E; now apply (f_equal (fun n => match n with NNum q => q | _ => inject_Z 0 end)) in E]).
  all: try (split; [intros E; rewrite E; reflexivity|intros E; symmetry; now apply (f_equal (fun n => match n with NNum q => q | _ => inject_Z 0 end)) in E]).

Qed.

Lemma keyed_tuple l : keyed (KTuple l) = keyed_all l.
Proof. reflexivity. Qed.
Lemma keyed_struct l : keyed (KStruct l) = keyed_all l.
Proof. reflexivity. Qed.
Lemma kdepth_pos x : (1 <= kdepth x)%nat.
Proof. destruct x; cbn; lia. Qed.

Lemma py_eq_spec n : forall a b, keyed a -> keyed b -> (kdepth a + kdepth b <= n)%nat ->
  exists r, py_eq n a b = Ok r /\ (r = true <-> norm a = norm b).
Proof.
  induction n as [|n IH]; intros a b KA KB D.
  { pose proof (kdepth_pos a). lia. }
  assert (IT : forall x y, keyed_all x -> keyed_all y -> (lmax x + lmax y <= n)%nat ->
    exists r, eq_items n x y = Ok r /\ (r = true <-> map norm x = map norm y)).
  { induction x as [|u x IHx]; intros [|w y] Kx Ky L; cbn [eq_items map].
    - exists true. split; [reflexivity|]. split; reflexivity.
    - exists false. split; [reflexivity|]. split; discriminate.
    - exists false. split; [reflexivity|]. split; discriminate.
    - cbn [keyed_all lmax fold_right] in *. destruct Kx as [Ku Kx], Ky as [Kw Ky].
      fold (lmax x) in L. fold (lmax y) in L.
      destruct (IH u w Ku Kw ltac:(lia)) as (r & E & R). rewrite E. cbn [bind].
      destruct r.
      + destruct (IHx y Kx Ky ltac:(lia)) as (r' & E' & R'). exists r'. split; [exact E'|].
        rewrite R'. split; [intros Q; f_equal; [apply R; reflexivity|exact Q]|intros Q; injection Q; congruence].
      + exists false. split; [reflexivity|]. split; [discriminate|]. intros Q.
        assert (norm u = norm w) by congruence. apply R in H. discriminate. }
  assert (SC : forall (P : Prop), (false = true <-> P) <-> ~ P) by (intros; split; [intros [_ Q] p; discriminate (Q p)|intros; split; [discriminate|contradiction]]).
  assert (KL : forall ad t c sl other, keyed (KList ad t c sl) -> keyed other ->
    exists r, list_equals t c sl other = Ok r /\ (r = true <-> NList t c sl = norm other)).
  { intros ad [t|] c sl other K Ko; [|contradiction]. cbn [list_equals].
    destruct other as [|?|?|[|?|? ?]|?|?|?|?| |ad' [t'|] c' sl']; try contradiction;
      try (exists false; split; [reflexivity|apply SC; cbn [norm]; discriminate]).
    eexists. split; [reflexivity|]. cbn [norm]. rewrite !andb_true_iff, !Z.eqb_eq, beq_spec.
    split; [intros ((-> & ->) & ->); reflexivity|intros E]. split; [split|].
    - exact (f_equal (fun n => match n with NList _ c _ => c | _ => 0 end) E).
    - exact (f_equal (fun n => match n with NList (Some t) _ _ => t | _ => 0 end) E).
    - exact (f_equal (fun n => match n with NList _ _ sl => sl | _ => [] end) E). }
  destruct a as [|z|bo|f|by_|u|l|key| |ad t c sl].
  10: { cbn [py_eq]. destruct (KL ad t c sl b KA KB) as (r & E & R). exists r. split; [exact E|exact R]. }
  all: destruct b as [|z'|bo'|f'|by_'|u'|l0|key0| |ad' t' c' sl']; try contradiction.
  all: try (match goal with |- exists r, py_eq _ ?a (KList ?ad ?t ?c ?sl) = _ /\ _ =>
      destruct (KL ad t c sl a KB KA) as (r & E & R); exists r; split; [exact E|]; rewrite R; split; intros X; symmetry; exact X end).
  all: try (match goal with |- exists r, py_eq _ ?a ?b = _ /\ _ => exists (scalar_eq a b); split; [reflexivity|apply scalar_eq_spec; repeat (match goal with f : pyfloat |- _ => destruct f end); first [exact I|contradiction]] end).
  all: rewrite ?keyed_tuple, ?keyed_struct in *.
  all: try (match goal with |- exists r, py_eq _ ?a ?b = _ /\ _ => exists false; split; [reflexivity|apply SC; cbn [norm]; repeat (match goal with f : pyfloat |- _ => destruct f end); discriminate] end).
  - rewrite py_eq_tuple. cbn [kdepth] in D. destruct (IT l l0 KA KB) as (r & E & R).
    { unfold lmax. lia. }
    exists r. split; [exact E|]. rewrite R. cbn [norm]. split; congruence.
  - cbn [py_eq]. cbn [kdepth] in D.
    destruct (IH (KTuple l) (KTuple key0)) as (r & E & R); try assumption. { cbn [kdepth]. lia. }
    exists r. split; [exact E|exact R].
  - cbn [py_eq]. cbn [kdepth] in D.
    destruct (IH (KTuple l0) (KTuple key)) as (r & E & R); try assumption. { cbn [kdepth]. lia. }
    exists r. split; [exact E|]. rewrite R. cbn [norm]. split; congruence.
  - cbn [py_eq]. cbn [kdepth] in D.
    destruct (IH (KStruct key0) (KTuple key)) as (r & E & R); try assumption. { cbn [kdepth]. lia. }
    exists r. split; [exact E|]. rewrite R. cbn [norm]. split; congruence.
Qed.

(** ** Hashing *)
Fixpoint no_lists_all (l : list kv) : Prop :=
  match l with [] => True | y :: r => no_lists y /\ no_lists_all r end.
Section hash.
  Variables (hNone : Z) (hBytes : bytes -> Z) (hText : list Z -> Z) (hList : Z -> res Z).
  Let py_hash := py_hash hNone hBytes hText hList.

  Fixpoint hash_items (l : list kv) : res (list Z) :=
    match l with
    | [] => Ok []
    | u :: r => do h <- py_hash u; do hs <- hash_items r; Ok (h :: hs)
    end.

  Lemma hash_items_eq l :
    (fix items (l : list kv) : res (list Z) :=
      match l with
      | [] => Ok []
      | u :: r => do h <- Key.py_hash hNone hBytes hText hList u; do hs <- items r; Ok (h :: hs)
      end) l = hash_items l.
  Proof. induction l as [|u l IH]; [reflexivity|]. cbn [hash_items]. now rewrite IH. Qed.

  (** the hashes of the interpreter fit in a Py_hash_t and are never -1 *)
  Definition good_hash (h : Z) : Prop := - 2 ^ 63 <= h < 2 ^ 63 /\ h <> -1.

  Lemma mod61_good s m : -1 <= s <= 1 -> good_hash (let h := s * (m mod py_hash_modulus) in if h =? -1 then -2 else h).
  Proof.
    intros S. unfold good_hash, py_hash_modulus. cbv zeta.
    assert (M : 0 <= m mod (2 ^ 61 - 1) < 2 ^ 61 - 1) by (apply Z.mod_pos_bound; lia).
    set (x := m mod (2 ^ 61 - 1)) in *. clearbody x. assert (s = -1 \/ s = 0 \/ s = 1) as [-> | [-> | ->]] by lia;
    match goal with |- context [?h =? -1] => destruct (Z.eqb_spec h (-1)) end; lia.
  Qed.
  Lemma sgn_range z : -1 <= Z.sgn z <= 1.
  Proof. destruct z; cbn; lia. Qed.
  Lemma py_hash_int_good z : good_hash (py_hash_int z).
  Proof. exact (mod61_good (Z.sgn z) (Z.abs z) (sgn_range z)). Qed.
  Lemma py_hash_float_good f : good_hash (py_hash_float f).
  Proof.
    destruct f as [|[|]|m e]; [unfold good_hash; cbn; lia..|]. exact (mod61_good (Z.sgn m) (Z.abs m * 2 ^ (e mod 61)) (sgn_range m)).
  Qed.
  Lemma py_tuple_hash_good hs : good_hash (py_tuple_hash hs).
  Proof.
    unfold py_tuple_hash, good_hash. set (a := (_ + _) mod _).
    assert (0 <= a < 2 ^ 64) by (apply Z.mod_pos_bound; lia).
    destruct (Z.eqb_spec a (2 ^ 64 - 1)); [lia|]. unfold to_signed. change (64 - 1) with 63.
    destruct (Z.ltb_spec a (2 ^ 63)); lia.
  Qed.

  (** values that are the same up to == have the same hash *)
  Lemma num_hash a b : scalar a -> scalar b -> norm a = norm b -> py_hash a = py_hash b.
  Proof.
    intros SA SB E.
    destruct a as [|z|bo|[|ne|m e]|by_|u|l|key| |ad t c sl], b as [|z'|bo'|[|ne'|m' e']|by_'|u'|l0|key0| |ad' t' c' sl']; try contradiction; cbn [norm] in E; try discriminate E;
      unfold py_hash; cbn [Key.py_hash].
    all: try (apply (f_equal (fun n => match n with NBytes b => b | _ => [] end)) in E; now rewrite E).
    all: try (apply (f_equal (fun n => match n with NText b => b | _ => [] end)) in E; now rewrite E).
    all: try (apply (f_equal (fun n => match n with NInf b => b | _ => true end)) in E; now rewrite E).
    all: try reflexivity.
    all: apply (f_equal (fun n => match n with NNum q => q | _ => inject_Z 0 end)) in E.
    all: rewrite <- ?(py_hash_float_int z), <- ?(py_hash_float_int z'), <- ?(py_hash_float_int (Z.b2z bo)), <- ?(py_hash_float_int (Z.b2z bo')).
    all: f_equal; apply dyadic_hash, Qred_iff; rewrite ?dyadic_int, ?Qred_inject; exact E.
  Qed.

  Lemma hash_eq_fuel n : forall a b, (kdepth a + kdepth b <= n)%nat -> keyed a -> keyed b -> no_lists a -> no_lists b -> norm a = norm b ->
    exists h, py_hash a = Ok h /\ py_hash b = Ok h.
  Proof.
    induction n as [|n IH]; intros a b D KA KB NA NB E. { pose proof (kdepth_pos a). lia. }
    assert (IT : forall l l', keyed_all l -> keyed_all l' -> no_lists_all l -> no_lists_all l' -> (lmax l + lmax l' <= n)%nat -> map norm l = map norm l' ->
      exists hs, hash_items l = Ok hs /\ hash_items l' = Ok hs).
    { induction l as [|u l IHl]; intros [|w l'] Kl Kl' Nl Nl' L Em; try discriminate Em; [eexists; split; reflexivity|].
      cbn [keyed_all no_lists_all lmax fold_right map] in *. fold (lmax l) in L. fold (lmax l') in L.
      destruct Kl as [Ku Kl], Kl' as [Kw Kl'], Nl as [Nu Nl], Nl' as [Nw Nl'].
      pose proof (f_equal (@hd kn NNone) Em) as E1. pose proof (f_equal (@tl kn) Em) as E2. cbn [hd tl] in E1, E2.
      destruct (IH u w ltac:(lia) Ku Kw Nu Nw E1) as (h & H1 & H2). destruct (IHl l' Kl Kl' Nl Nl' ltac:(lia) E2) as (hs & H3 & H4).
      exists (h :: hs). cbn [hash_items]. rewrite H1, H2. cbn [bind]. rewrite H3, H4. split; reflexivity. }
    assert (TT : forall l l', keyed_all l -> keyed_all l' -> no_lists_all l -> no_lists_all l' -> (lmax l + lmax l' <= n)%nat -> NTuple (map norm l) = NTuple (map norm l') ->
      exists h, (do hs <- hash_items l; Ok (py_tuple_hash hs)) = Ok h /\ (do hs <- hash_items l'; Ok (py_tuple_hash hs)) = Ok h).
    { intros l l' A1 A2 A3 A4 A5 A6. apply (f_equal (fun n => match n with NTuple l => l | _ => [] end)) in A6.
      destruct (IT l l' A1 A2 A3 A4 A5 A6) as (hs & H1 & H2). rewrite H1, H2. eexists. split; reflexivity. }
    assert (Hx : scalar a \/ exists l, (a = KTuple l \/ a = KStruct l)) by (destruct a as [|?|?|[|?|? ?]|?|?|?|?| |? ? ? ?]; cbn in *; try contradiction; eauto).
    assert (Hy : scalar b \/ exists l, (b = KTuple l \/ b = KStruct l)) by (destruct b as [|?|?|[|?|? ?]|?|?|?|?| |? ? ? ?]; cbn in *; try contradiction; eauto).
    destruct Hx as [Sa | (l & Ha)], Hy as [Sb | (l' & Hb)].
    - pose proof (num_hash a b Sa Sb E) as H.
      assert (exists h, py_hash a = Ok h) as (h & H1) by (destruct a as [|?|?|[|?|? ?]|?|?|?|?| |? ? ? ?]; try contradiction; eexists; reflexivity).
      exists h. split; [exact H1|]. now rewrite <- H.
    - exfalso. destruct Hb as [-> | ->]; destruct a as [|?|?|[|?|? ?]|?|?|?|?| |? ? ? ?]; try contradiction; discriminate E.
    - exfalso. destruct Ha as [-> | ->]; destruct b as [|?|?|[|?|? ?]|?|?|?|?| |? ? ? ?]; try contradiction; discriminate E.
    - destruct Ha as [-> | ->], Hb as [-> | ->]; unfold py_hash; cbn [Key.py_hash]; rewrite !hash_items_eq; apply TT; try assumption; cbn [kdepth] in D; fold (lmax l) in D; fold (lmax l') in D; lia.
  Qed.
  Lemma hash_eq a b : keyed a -> keyed b -> no_lists a -> no_lists b -> norm a = norm b ->
    exists h, py_hash a = Ok h /\ py_hash b = Ok h.
  Proof. apply (hash_eq_fuel (kdepth a + kdepth b)). lia. Qed.

  Hypothesis GN : good_hash hNone.
  Hypothesis GB : forall b, good_hash (hBytes b).
  Hypothesis GT : forall u, good_hash (hText u).
  Hypothesis GL : forall a h, hList a = Ok h -> good_hash h.

  Lemma py_hash_good x h : py_hash x = Ok h -> good_hash h.
  Proof.
    destruct x; unfold py_hash; cbn [Key.py_hash]; rewrite ?hash_items_eq; intros E; try discriminate E;
      try (apply ok_inj in E; subst h; auto using py_hash_int_good, py_hash_float_good).
    - destruct (hash_items l); cbn [bind] in E; [|discriminate]. apply ok_inj in E. subst h. apply py_tuple_hash_good.
    - destruct (hash_items key); cbn [bind] in E; [|discriminate]. apply ok_inj in E. subst h. apply py_tuple_hash_good.
    - exact (GL _ _ E).
  Qed.

  (** what the getter of a key field can return, by type *)
  Definition kf_ok (p : kfield * kv) : Prop :=
    match fst p, snd p with
    | KFInt, KInt z => - 2 ^ 63 <= z < 2 ^ 63
    | KFUint64, KInt z => 0 <= z < 2 ^ 64
    | KFTextUnicode, KNone => False
    | _, _ => True
    end.

  Lemma fast_fields_spec l : Forall kf_ok l ->
    fast_fields hNone hBytes hText hList l = hash_items (map snd l).
  Proof.
    induction 1 as [|[f x] l O F IH]; [reflexivity|]. unfold kf_ok in O.
    cbn [fast_fields map hash_items snd fst] in *. rewrite IH.
    assert (E : fast_field hNone hBytes hText hList f x = py_hash x).
    { destruct f, x; try reflexivity; try contradiction; cbn [fast_field] in *.
      - unfold c_long. rewrite (proj2 (Z.leb_le _ _)), (proj2 (Z.ltb_lt _ _)) by lia. cbn [andb bind].
        apply inthash_spec. lia.
      - rewrite (proj2 (Z.leb_le _ _)), (proj2 (Z.ltb_lt _ _)) by lia. cbn [andb].
        rewrite longhash_spec by lia. reflexivity. }
    rewrite E. reflexivity.
  Qed.

  Lemma fast_hash_spec l : Forall kf_ok l ->
    fast_hash hNone hBytes hText hList l = py_hash (KStruct (map snd l)).
  Proof.
    intros F. unfold fast_hash, py_hash. cbn [Key.py_hash]. rewrite hash_items_eq. rewrite (fast_fields_spec l F).
    assert (G : forall l hs, hash_items l = Ok hs -> Forall good_hash hs).
    { clear l F. induction l as [|u l IH]; intros hs E; cbn [hash_items] in E; [apply ok_inj in E; subst; constructor|].
      destruct (py_hash u) as [h|] eqn:Eu; cbn [bind] in E; [|discriminate]. destruct (hash_items l) as [hs'|]; cbn [bind] in E; [|discriminate].
      apply ok_inj in E. subst hs. constructor; [exact (py_hash_good u h Eu)|now apply IH]. }
    destruct (hash_items (map snd l)) as [hs|e] eqn:E; cbn [bind]; [|reflexivity]. f_equal. apply tuplehash_spec. exact (G _ _ E).
  Qed.
End hash.

(** more fuel does not change an answer *)
Lemma py_eq_mono n : forall m a b r, (n <= m)%nat -> py_eq n a b = Ok r -> py_eq m a b = Ok r.
Proof.
  induction n as [|n IH]; intros m a b r L E; [discriminate|].
  destruct m as [|m]; [lia|]. apply le_S_n in L.
  assert (IT : forall x y r, eq_items n x y = Ok r -> eq_items m x y = Ok r).
  { induction x as [|u x IHx]; intros [|w y] r0 H; cbn [eq_items] in *; try exact H.
    destruct (py_eq n u w) as [q|] eqn:Q; [|discriminate]. rewrite (IH m _ _ _ L Q). cbn [bind] in *.
    destruct q; [apply IHx; exact H|exact H]. }
  destruct a as [|?|?|?|?|?|?|?| |? ? ? ?], b as [|?|?|?|?|?|?|?| |? ? ? ?]; try (rewrite py_eq_tuple in *; apply IT, E; fail);
    cbn [py_eq] in *; try exact E; try (eapply IH; [exact L|exact E]).
Qed.
