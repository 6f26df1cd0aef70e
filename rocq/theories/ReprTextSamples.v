(** shortrepr() of capnpy/schema.py and annotate.py, and of a class with fields
    of every kind *)
From Coq Require Import Strings.String.
From Verif Require Import Base BaseFacts Spec Ptr Segment Builder Struct List CopyList Case Ctor Loader Repr PyExpr
  PySyntax PySyntaxFacts PyPrint PyRun GenText TextSpec SchemaText SchemaRepr ReprText ReprRun ReprTextFacts Properties_ReprText.
From Verif Require GenRun.
From Coq Require Import Lists.List.
Local Notation length := Datatypes.length.
Local Open Scope string_scope.
Local Open Scope list_scope.
Local Open Scope Z_scope.

(** ** The text of the modules that the compiler has generated for itself *)
Definition rty_of (t : ftype) : rty :=
  match t with
  | TVoid => RVoid | TPrim f => RPrim f | TFloat32 => RFloat32 | TFloat64 => RFloat64 | TBool => RBool | TEnum => REnum [] [] []
  | TText => RText false | TData => RData | TStruct => RStruct 0 | TList _ => RList RVoid | TAny => RAny
  end.
Definition nfield_of (f : field) (cap : string) : nfield :=
  mknf (lit (f_name f)) (mkrf (lit cap) (f_disc f)
    match f with FSlot _ _ _ t off _ d => KSlot (rty_of t) off d | FGroup _ _ _ n _ _ => KGrp 0 n end).
Fixpoint nfields (fs : list field) (caps : list string) : list nfield :=
  match fs, caps with f :: fs, c :: caps => nfield_of f c :: nfields fs caps | _, _ => [] end.
Fixpoint same_text (a b : list str) : bool :=
  match a, b with [], [] => true | x :: a, y :: b => str_eqb x y && same_text a b | _, _ => false end.
Lemma schema_reprs : forallb (fun x => match x with (sn, caps, txt) =>
  Nat.eqb (length (sn_fields sn)) (length caps) && same_text (repr_text 4 (nfields (sn_fields sn) caps)) (map lit txt) end) repr_texts = true.
Proof. vm_compute. reflexivity. Qed.

(** ** A class with fields of every kind, and its nullable group *)
Definition slot (n : string) (cap : string) (disc : option Z) (t : rty) (off : Z) : nfield := mknf (lit n) (mkrf (lit cap) disc (KSlot t off 0)).
Definition color : rty := REnum (lit "Color") [lit "red"; lit "green"] [lit "red"; lit "green"].
Definition node_fields : list nfield :=
  [slot "a" "a" None (RPrim FI) 0; slot "hex_text" "hexText" None (RText false) 0; slot "next" "next" None (RStruct 0) 1;
   slot "l" "l" None (RList (RStruct 0)) 2; slot "e" "e" None color 2; slot "b" "b" None RBool 48; slot "f" "f" None RFloat64 2;
   slot "nothing" "nothing" (Some 0) RVoid 0; slot "d" "d" (Some 1) RData 3;
   mknf (lit "g") (mkrf (lit "g") None (KGrp 1 true))].
Definition g_fields : list nfield := [slot "is_null" "isNull" None (RPrim Fb) 10; slot "value" "value" None (RPrim FI) 3].
Definition cls (c : nat) : list nfield := match c with O => node_fields | Datatypes.S O => g_fields | _ => [] end.
Definition Sch : schema := fun c => mkrc 3 4 (match c with O => Some 4 | _ => None end) (map nf_field (cls c)).
Definition parse (ls : list str) : list pstmt :=
  match logical None ls with Some l => match p_block 2000 4 l with Some (b, []) => b | _ => [] end | None => [] end.
(** what Python reads in the text, after an older definition *)
Definition body (c : nat) : list pstmt := qDef None (lit "shortrepr") [(lit "self", None)] [qPass] :: parse (repr_text 4 (cls c)).

Ltac nodup := repeat (apply NoDup_cons; [intros J; vm_compute in J; repeat (destruct J as [J|J]; [discriminate J|]); destruct J|]); apply NoDup_nil.
Ltac notin := let J := fresh in intros J; vm_compute in J; repeat (destruct J as [J|J]; [discriminate J|]); destruct J.
Lemma body_text c : exists k l, reads_as k (repr_text k (cls c)) l /\ GenRun.last_def (body c) (lit "shortrepr") = GenRun.last_def l (lit "shortrepr").
Proof.
  assert (R : exists l, reads_as 4 (repr_text 4 (cls c)) l /\ parse (repr_text 4 (cls c)) = l /\ GenRun.last_def (body c) (lit "shortrepr") = GenRun.last_def l (lit "shortrepr")).
  { destruct c as [|[|c]]; (eexists; split; [eexists _, 2000%nat; split; [vm_compute; reflexivity|vm_compute; reflexivity]|split; vm_compute; reflexivity]). }
  destruct R as (l & R & _ & E). exists 4%nat, l. auto.
Qed.
Lemma node_printed : printed Sch cls body.
Proof.
  split.
  - reflexivity.
  - intros c f I. destruct c as [|[|c]]; cbn in I; repeat (destruct I as [<-|I]; [split; [split|]; reflexivity|]); destruct I.
  - apply body_text.
  - intros [|[|c]]; [nodup|nodup|apply NoDup_nil].
  - intros [|[|c]]; [notin|notin|intros []].
  - intros c f I N. destruct c as [|[|c]]; cbn in I; repeat (destruct I as [<-|I]; [try discriminate N|]); try (destruct I; fail). notin.
Qed.

(** an object, and what its shortrepr() is *)
Definition fp : floats := {| fp32 := fun _ => lit "?"; fp64 := fun z => if z =? 0 then lit "0.0" else lit "1.5" |}.
Definition bs (l : list Z) : bytes := map Zb l.
Definition sample : bytes := bs (
  [7; 0; 0; 0; 1; 0; 1; 0;   1; 0; 1; 0; 5; 0; 0; 0;   0; 0; 0; 0; 0; 0; 248; 63]
  ++ [13; 0; 0; 0; 26; 0; 0; 0;   0; 0; 0; 0; 0; 0; 0; 0;   0; 0; 0; 0; 0; 0; 0; 0;   0; 0; 0; 0; 0; 0; 0; 0]
  ++ [104; 34; 0; 0; 0; 0; 0; 0]).
Definition sample_obj : obj := {| o_seg := {| sbuf := sample; soffs := None |}; o_off := 0; o_ptrs := 24; o_ds := 3; o_ps := 4 |}.
Lemma sample_shown : shows fp Sch cls body 2 0 sample_obj =
  Ok (VStr (lit "(a = 7, hexText = ""h\"""", e = green, b = true, f = 1.5, d = """", g = (isNull = 1, value = 5))")).
Proof. rewrite (C84_shortrepr fp Sch cls body node_printed). vm_compute. reflexivity. Qed.
(** run without the theorem *)
Lemma sample_runs : shows fp Sch cls body 2 0 sample_obj = (do t <- shortrepr 2 fp Sch 0 sample_obj; Ok (VStr t)) /\ shows fp Sch cls body 1 0 sample_obj = Err OutOfFuel.
Proof. split; vm_compute; reflexivity. Qed.
