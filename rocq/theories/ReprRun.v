(** Specification: what the text of shortrepr() uses, as a [runtime] for
    PyRun.v. The accessors of the objects (obj.foo, obj.get_foo(),
    obj.has_foo(), obj.is_foo()) are those of the model (C80 is about their
    own text); the printing of lists, texts and floats are the functions of
    Repr.v (list.py, util.py). The state is the list of the lists made by the
    call which is running; a call begins without lists, because no list is
    passed from one call to another. *)
From Coq Require Import Strings.String.
From Verif Require Import Base Spec Ptr Segment Builder Struct List Case Enum CopyList Ctor Utf8 Loader PySyntax PyRun.
From Verif Require Import Repr ReprText.
From Verif Require GenRun.
From Coq Require Import Lists.List.
Local Notation length := Datatypes.length.
Local Open Scope string_scope.
Local Open Scope list_scope.
Local Open Scope Z_scope.

Inductive rv :=
| VNone | VStr (s : str) | VInt (z : Z) | VBool (b : bool) | VFlo (wide : bool) (bits : Z) | VBytes (b : bytes)
| VEnum (members : list str) (z : Z) | VLst (t : rty) (l : lobj) | VObj (c : nat) (o : obj)
| VParts (i : nat) | VFun (n : str) | VMeth (v : rv) (n : str).
Definition heap := list (list str).
Definition outside {A} : res A := Err MemFault.
Definition is (n : str) (s : string) : bool := str_eqb n (lit s).

(** str(v) *)
Definition str_of (v : rv) : res str :=
  match v with
  | VStr s => Ok s
  | VInt z => Ok (dec z)
  | VBool b => Ok (if b then lit "True" else lit "False")
  | VNone => Ok (lit "None")
  | VEnum ms z => do n <- enum_str ms z; Ok (ename_str n)
  | _ => outside
  end.
(** t % v, where t has one %s and no other % *)
Fixpoint percent (t v : str) : option str :=
  match t with
  | [] => None
  | c :: r =>
      if c =? 37 then
        match r with
        | d :: r' => if (d =? 115) && negb (existsb (Z.eqb 37) r') then Some (v ++ r') else None
        | [] => None
        end
      else match percent r v with Some x => Some (c :: x) | None => None end
  end.
(** s.lower(), ASCII *)
Definition lower (s : str) : str := map (fun c => if (65 <=? c) && (c <=? 90) then c + 32 else c) s.

Fixpoint put (i : nat) (x : list str) (h : heap) : heap :=
  match h, i with
  | [], _ => []
  | _ :: r, O => x :: r
  | a :: r, Datatypes.S i => a :: put i x r
  end.

(** The accessors of a field which shortrepr() uses (compiler/field.py);
    obj.foo of a nullable group is not among them, obj._foo is *)
Inductive accessor := AProp | AGet | AHas | AIs.
Definition accessors (f : nfield) : list (str * (accessor * nfield)) :=
  (if is_nullable (nf_field f) then (lit "_" ++ nf_name f, (AProp, f)) else (nf_name f, (AProp, f))) ::
  (if pointer f then [(lit "has_" ++ nf_name f, (AHas, f)); (lit "get_" ++ nf_name f, (AGet, f))] else []) ++
  (match rf_disc (nf_field f) with Some _ => [(lit "is_" ++ nf_name f, (AIs, f))] | None => [] end).

Section run.
Variable fp : floats.
Variable S : schema.
Variable cls : nat -> list nfield.     (* the fields of a class *)
Variable body : nat -> list pstmt.     (* the body of a class *)

Definition all_accessors (c : nat) : list (str * (accessor * nfield)) := flat_map accessors (cls c).
(** the last definition of a name counts *)
Definition accessor_of (c : nat) (n : str) : option (accessor * nfield) :=
  match find (fun p => str_eqb (fst p) n) (rev (all_accessors c)) with Some p => Some (snd p) | None => None end.

(** what a getter returns; the pairs that are left out do not occur *)
Definition value_of (t : rty) (g : gval) : res rv :=
  match t, g with
  | RVoid, GNone => Ok VNone
  | RBool, GBool b => Ok (VBool b)
  | RPrim _, GInt v => Ok (VInt v)
  | RFloat32, GF32 v => Ok (VFlo false v)
  | RFloat64, GF64 v => Ok (VFlo true v)
  | REnum _ ms _, GInt v => Ok (VEnum ms v)
  | RText false, GBytes b => Ok (VBytes b)
  | RText true, GBytes b => do s <- utf8_decode b; Ok (VStr s)
  | RData, GBytes b => Ok (VBytes b)
  | RStruct c, GObj o => Ok (VObj c o)
  | RList t', GList l => Ok (VLst t' l)
  | _, _ => Err TypeError
  end.
Definition prop (u : option Z) (o : obj) (f : nfield) : res rv :=
  match rf_kind (nf_field f) with
  | KGrp c _ => do g <- get_group o u (slot_of S (nf_field f)); Ok (VObj c g)
  | KSlot t _ _ => do g <- get_slot o u (slot_of S (nf_field f)); value_of t g
  end.
Definition call_accessor (u : option Z) (o : obj) (a : accessor) (f : nfield) : res rv :=
  match a with
  | AProp => outside
  | AGet =>
      match rf_kind (nf_field f) with
      | KSlot t _ _ => do g <- get_method o u (slot_of S (nf_field f)); value_of t g
      | KGrp _ _ => outside
      end
  | AHas => do h <- has_slot o (slot_index (nf_field f)); Ok (VBool h)
  | AIs => match rf_disc (nf_field f) with Some d => do w <- which o u; Ok (VBool (w =? d)) | None => outside end
  end.

(** functions of the module: builtins and util.py:90-114 *)
Definition functions : list string :=
  ["str"; "_float32_repr"; "_float64_repr"; "_text_bytes_repr"; "_text_unicode_repr"; "_data_repr"].
Definition call_fun (n : str) (v : rv) : res str :=
  if is n "str" then str_of v
  else match v with
       | VFlo false b => if is n "_float32_repr" then Ok (fp32 fp b) else outside
       | VFlo true b => if is n "_float64_repr" then Ok (fp64 fp b) else outside
       | VBytes b =>
           if is n "_text_bytes_repr" then text_bytes_repr (Some b)
           else if is n "_data_repr" then Ok (data_repr b) else outside
       | VStr s => if is n "_text_unicode_repr" then Ok (text_unicode_repr s) else outside
       | _ => outside
       end.

Definition text_of (v : rv) : res str := match v with VStr s => Ok s | _ => outside end.

(** [depth]: how deep shortrepr() may call shortrepr() *)
Fixpoint rr (depth : nat) : runtime rv heap :=
  let show c o := (* o.shortrepr(), an instance of class c *)
    match depth with
    | O => Err OutOfFuel
    | Datatypes.S d =>
        match GenRun.last_def (body c) (lit "shortrepr") with
        | Some (None, ps, b) => do (v, _) <- call_def (rr d) ps b [VObj c o] [] []; text_of v
        | _ => outside
        end
    end in
  {| r_int z := VInt z;
     r_float _ := VNone;                       (* not used *)
     r_str t := VStr t;
     r_bytes b := VBytes b;
     r_const c := match c with CNone => VNone | CTrue => VBool true | CFalse => VBool false end;
     r_bool b := VBool b;
     r_tuple _ := outside;
     r_nil h := Ok (VParts (length h), h ++ [[]]);
     r_neg _ := outside;
     r_bin o a b :=
       match o, a with
       | BMod, VStr t => do s <- str_of b; match percent t s with Some x => Ok (VStr x) | None => Err TypeError end
       | _, _ => outside
       end;
     r_cmp _ _ _ := outside;
     r_truth v := match v with VBool b => Ok b | _ => outside end;
     r_iter _ := outside;
     r_global n := if existsb (is n) functions then Ok (VFun n) else Err NameError;
     r_attr v n h :=
       match v with
       | VObj c o =>
           if is n "shortrepr" then Ok (VMeth v n, h)
           else match accessor_of c n with
                | Some (AProp, f) => do x <- prop (rc_utag (S c)) o f; Ok (x, h)
                | Some _ => Ok (VMeth v n, h)
                | None => Err AttributeError
                end
       | VLst _ _ => if is n "shortrepr" then Ok (VMeth v n, h) else Err AttributeError
       | VStr _ => if is n "join" || is n "lower" then Ok (VMeth v n, h) else Err AttributeError
       | VParts _ => if is n "append" then Ok (VMeth v n, h) else Err AttributeError
       | _ => Err AttributeError
       end;
     r_call v args kws h :=
       match v, args, kws with
       | VMeth (VObj c o) n, [], [] =>
           if is n "shortrepr" then do s <- show c o; Ok (VStr s, h)
           else match accessor_of c n with
                | Some (a, f) => do x <- call_accessor (rc_utag (S c)) o a f; Ok (x, h)
                | None => outside
                end
       | VMeth (VLst t l) n, [], [] =>
           if is n "shortrepr" then do s <- list_repr (item_repr fp show t) l; Ok (VStr s, h) else outside
       | VMeth (VStr s) n, [], [] => if is n "lower" then Ok (VStr (lower s), h) else outside
       | VMeth (VStr s) n, [VParts i], [] =>
           match nth_error h i with
           | Some ps => if is n "join" then Ok (VStr (join_with s ps), h) else outside
           | None => outside
           end
       | VMeth (VParts i) n, [VStr s], [] =>
           match nth_error h i with
           | Some ps => if is n "append" then Ok (VNone, put i (ps ++ [s]) h) else outside
           | None => outside
           end
       | VFun n, [x], [] => do s <- call_fun n x; Ok (VStr s, h)
       | _, _, _ => outside
       end;
     r_raise _ := TypeError |}.

(** obj.shortrepr() *)
Definition shows (depth : nat) (c : nat) (o : obj) : res rv :=
  do (v, _) <- r_call (rr depth) (VMeth (VObj c o) (lit "shortrepr")) [] [] []; Ok v.
End run.
