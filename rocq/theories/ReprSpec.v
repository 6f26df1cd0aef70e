(** Specification of shortrepr: what is shown of a value ([view]), how it
    looks ([print]), and a reader for the text format of the capnp tool
    ([parse]). Nothing here depends on buffers or on generated code. *)
From Coq Require Import Strings.String.
From Verif Require Import Base Spec Case Enum List Query Utf8 Loader Repr.
From Coq Require Import Lists.List.
Local Notation length := Datatypes.length.

(** ** What a text says about a value *)
Inductive tval :=
| XVoid | XBool (b : bool) | XInt (z : Z)
| XFloat (s : str)                     (* its text *)
| XEnum (name : str)
| XText (s : str) | XData (b : bytes)
| XStruct (l : list (str * tval))      (* the fields that are there *)
| XList (l : list tval)
| XOther (s : str).                    (* a text that is not part of the format *)

(** How the elements of a List(t) are laid out: by width of a scalar, text
    with its NUL, the sizes of the struct *)
Fixpoint elem (S : schema) (t : rty) : itype :=
  match t with
  | RVoid | RAny => ITVoid
  | RBool => ITBool
  | RPrim f => ITPrim f
  | RFloat32 => ITFloat false
  | RFloat64 => ITFloat true
  | REnum _ _ _ => ITPrim Fh
  | RText _ => ITText (-1)
  | RData => ITText 0
  | RStruct c => ITStruct (rc_ds (S c)) (rc_ps (S c))
  | RList t => ITList (elem S t)
  end.

(** ** A value in the view of a class *)
Section view.
  Variables (fp : floats) (S : schema).

  (** a scalar of type [t], from its raw number *)
  Definition view_enum (ms : list str) (v : Z) : res tval :=
    do n <- enum_str ms v;
    Ok (match n with EName s => XEnum s | EUnknown v => XOther (lit "unknown<" ++ dec v ++ lit ">") end).
  Definition view_text (b : bytes) : res tval := do s <- utf8_decode b; Ok (XText s).

  Fixpoint res_map {A B} (f : A -> res B) (l : list A) : res (list B) :=
    match l with
    | [] => Ok []
    | x :: r => do a <- f x; do b <- res_map f r; Ok (a :: b)
    end.

  (** item of a list; [rec]: a struct *)
  Fixpoint view_item (rec : nat -> bytes -> list value -> res tval) (t : rty) (y : vitem) : res tval :=
    match t, y with
    | RVoid, _ => Ok XVoid
    | RBool, VIBool b => Ok (XBool b)
    | RPrim _, VIInt v => Ok (XInt v)
    | RFloat32, VIFloat false v => Ok (XFloat (fp32 fp v))
    | RFloat64, VIFloat true v => Ok (XFloat (fp64 fp v))
    | REnum cls ms _, VIInt v =>
        do n <- enum_str ms v;
        Ok (XOther (lit "<" ++ cls ++ lit "." ++ ename_str n ++ lit ": " ++ dec v ++ lit ">"))
    | RText _, VIBytes (Ok (Some b)) | RData, VIBytes (Ok (Some b)) => view_text b
    | RText _, VIBytes (Ok None) | RData, VIBytes (Ok None) => Err AttributeError
    | RStruct c, VIObj d vs => rec c d vs
    | RList t', VIList v =>
        do l <- res_map (fun i => match v_item (elem S t') v (Z.of_nat i) with
                                  | Some y => view_item rec t' y
                                  | None => Err TypeError
                                  end) (seq 0 (Z.to_nat (vcount v)));
        Ok (XList l)
    | _, _ => Err TypeError
    end.

  (** the contents of the pointer field: of its type's default if null *)
  Definition view_ptr (rec : nat -> bytes -> list value -> res tval) (t : rty) (v : value) : res tval :=
    match t, v with
    | RText _, VNull => view_text []
    | RData, VNull => Ok (XData [])
    | RStruct c, VNull => rec c [] []
    | RText _, VList _ n b => view_text (sub b 0 (n - 1))
    | RData, VList _ n b => Ok (XData (sub b 0 n))
    | RStruct c, VStruct d vs => rec c d vs
    | RList _, _ => view_item rec t (VIList v)
    | RAny, _ => Ok (XOther (lit "???"))
    | _, _ => Err TypeError
    end.

  Definition xor_default (v d : Z) : Z := if negb (d =? 0) then Z.lxor v d else v.

  Definition view_slot (rec : nat -> bytes -> list value -> res tval) (t : rty) (off dflt : Z)
      (d : bytes) (vs : list value) : res tval :=
    match t with
    | RVoid => Ok XVoid
    | RBool => Ok (XBool (xorb (Z.testbit (v_prim d (off / 8) FB) (off mod 8)) (negb (dflt =? 0))))
    | RPrim f => Ok (XInt (xor_default (v_prim d (off * fsize f) f) dflt))
    (* 0.0 and -0.0 are zero *)
    | RFloat32 => if negb ((dflt =? 0) || (dflt =? 2 ^ 31)) then Err TypeError else Ok (XFloat (fp32 fp (v_prim d (off * 4) FI)))
    | RFloat64 => if negb ((dflt =? 0) || (dflt =? 2 ^ 63)) then Err TypeError else Ok (XFloat (fp64 fp (v_prim d (off * 8) FQ)))
    | REnum _ ms _ => view_enum ms (xor_default (v_prim d (off * 2) Fh) dflt)
    | _ => view_ptr rec t (v_ptr vs off)
    end.

  Definition is_null (v : value) : bool := match v with VNull => true | _ => false end.

  (** Which fields are shown: those which are not in a union and not null;
      of a union the current one, unless it is the first one and null *)
  Definition tag_of_class (c : rclass) (d : bytes) : Z :=
    match rc_utag c with Some u => v_prim d (u * 2) Fh | None => 0 end.
  Definition null_field (vs : list value) (f : rfield) : bool :=
    match rf_kind f with
    | KSlot (RText _ | RData | RStruct _ | RList _ | RAny) off _ => is_null (v_ptr vs off)
    | _ => false
    end.
  Definition shown_field (c : rclass) (d : bytes) (vs : list value) (f : rfield) : bool :=
    match rf_disc f with
    | Some x => (tag_of_class c d =? x) && negb (null_field vs f && (x =? 0))
    | None => negb (null_field vs f)
    end.

  Definition view_field (rec : nat -> bytes -> list value -> res tval) (d : bytes) (vs : list value)
      (f : rfield) : res tval :=
    match rf_kind f with
    | KSlot t off dflt => view_slot rec t off dflt d vs
    | KGrp c _ => rec c d vs
    end.

  Fixpoint view_fields (rec : nat -> bytes -> list value -> res tval) (c : rclass) (d : bytes)
      (vs : list value) (l : list rfield) : res (list (str * tval)) :=
    match l with
    | [] => Ok []
    | f :: r =>
        do a <- (if is_nullable f && match rf_disc f with Some _ => true | None => false end
                 then Err AttributeError
                 else if shown_field c d vs f
                 then do x <- view_field rec d vs f; Ok [(rf_cap f, x)] else Ok []);
        do b <- view_fields rec c d vs r;
        Ok (a ++ b)
    end.

  (** [fuel]: the depth *)
  Fixpoint view (fuel : nat) (c : nat) (d : bytes) (vs : list value) : res tval :=
    match fuel with
    | O => Err OutOfFuel
    | Datatypes.S fuel' =>
        do l <- view_fields (view fuel') (S c) d vs (rc_fields (S c));
        Ok (XStruct l)
    end.
End view.

(** ** How it looks *)
Fixpoint print (x : tval) : str :=
  match x with
  | XVoid => lit "void"
  | XBool b => bool_str b
  | XInt z => dec z
  | XFloat s | XEnum s | XOther s => s
  | XText s => text_unicode_repr s
  | XData b => data_repr b
  | XStruct l => [40] ++ join_with comma (map (fun p => fst p ++ lit " = " ++ print (snd p)) l) ++ [41]
  | XList l => [91] ++ join_with comma (map print l) ++ [93]
  end.

(** ** When the data is of the type the schema says *)
Definition current (c : rclass) (d : bytes) (f : rfield) : Prop :=
  match rf_disc f with Some x => tag_of_class c d = x | None => True end.
Inductive fits (S : schema) : rty -> value -> Prop :=
| fits_null : forall t, fits S t VNull
| fits_text : forall u n b, 1 <= n -> fits S (RText u) (VList 2 n b)
| fits_data : forall n b, 0 <= n -> fits S RData (VList 2 n b)
| fits_struct : forall c d vs, fits_class S c d vs -> fits S (RStruct c) (VStruct d vs)
| fits_list : forall t v, (forall d vs, v <> VStruct d vs) ->
    (forall i, 0 <= i < vcount v -> exists y, v_item (elem S t) v i = Some y /\ fits_item S t y) ->
    fits S (RList t) v
| fits_any : forall v, fits S RAny v
with fits_item (S : schema) : rty -> vitem -> Prop :=
| fi_none : fits_item S RVoid VINone
| fi_bool : forall b, fits_item S RBool (VIBool b)
| fi_prim : forall f z, fits_item S (RPrim f) (VIInt z)
| fi_f32 : forall z, fits_item S RFloat32 (VIFloat false z)
| fi_f64 : forall z, fits_item S RFloat64 (VIFloat true z)
| fi_enum : forall c a b z, fits_item S (REnum c a b) (VIInt z)
| fi_text : forall u b, fits_item S (RText u) (VIBytes (Ok b))
| fi_data : forall b, fits_item S RData (VIBytes (Ok b))
| fi_struct : forall c d vs, fits_class S c d vs -> fits_item S (RStruct c) (VIObj d vs)
| fi_list : forall t v, fits S (RList t) v -> fits_item S (RList t) (VIList v)
(** of the members of a union, only the current one has to fit *)
with fits_class (S : schema) : nat -> bytes -> list value -> Prop :=
| fits_class_intro : forall c d vs,
    (forall f t off x, In f (rc_fields (S c)) -> current (S c) d f ->
       match t with RText _ | RData | RStruct _ | RList _ | RAny => True | _ => False end ->
       rf_kind f = KSlot t off x -> fits S t (v_ptr vs off)) ->
    (forall f g n, In f (rc_fields (S c)) -> current (S c) d f ->
       rf_kind f = KGrp g n -> fits_class S g d vs) ->
    fits_class S c d vs.

(** A schema in which offsets are not negative, and only unions have members *)
Definition schema_ok (S : schema) : Prop :=
  forall c, (forall u, rc_utag (S c) = Some u -> 0 <= u) /\
    forall f, In f (rc_fields (S c)) ->
      (rf_disc f <> None -> rc_utag (S c) <> None) /\
      match rf_kind f with KSlot t off _ => 0 <= off | KGrp _ _ => True end.

(** ** Reading the text format *)

(** The contents of a string literal, up to the closing quote: capnp's
    escapes are backslash and one of a b f n r t v ? or a quote (single or
    double) or a backslash, or x and two hexadecimal digits, or one to three
    octal digits; a backslash, a newline or a double quote cannot stand for
    itself. *)
Definition hexval (c : Z) : option Z :=
  if (48 <=? c) && (c <? 58) then Some (c - 48)
  else if (97 <=? c) && (c <? 103) then Some (c - 87)
  else if (65 <=? c) && (c <? 71) then Some (c - 55)
  else None.
Definition octval (c : Z) : option Z := if (48 <=? c) && (c <? 56) then Some (c - 48) else None.
Definition escape (c : Z) : option Z :=
  if c =? 97 then Some 7 else if c =? 98 then Some 8 else if c =? 102 then Some 12
  else if c =? 110 then Some 10 else if c =? 114 then Some 13 else if c =? 116 then Some 9
  else if c =? 118 then Some 11
  else if (c =? 39) || (c =? 34) || (c =? 92) || (c =? 63) then Some c
  else None.

(** one character; None: the literal is not well-formed *)
Definition lit_char (s : str) : option (Z * str) :=
  match s with
  | [] => None
  | c :: r =>
      if (c =? 34) || (c =? 10) then None
      else if negb (c =? 92) then Some (c, r)
      else
        match r with
        | [] => None
        | e :: r1 =>
            match escape e with
            | Some x => Some (x, r1)
            | None =>
                if e =? 120 then
                  match r1 with
                  | h :: l :: r2 =>
                      match hexval h, hexval l with
                      | Some a, Some b => Some (a * 16 + b, r2)
                      | _, _ => None
                      end
                  | _ => None
                  end
                else
                  match octval e with
                  | None => None
                  | Some a =>
                      match r1 with
                      | e2 :: r2 =>
                          match octval e2 with
                          | None => Some (a, r1)
                          | Some b =>
                              match r2 with
                              | e3 :: r3 =>
                                  match octval e3 with
                                  | None => Some (a * 8 + b, r2)
                                  | Some c => Some (a * 64 + b * 8 + c, r3)
                                  end
                              | [] => Some (a * 8 + b, r2)
                              end
                          end
                      | [] => Some (a, r1)
                      end
                  end
            end
        end
  end.
Fixpoint lit_body (fuel : nat) (s : str) : option (str * str) :=
  match fuel with
  | O => None
  | S fuel' =>
      match s with
      | [] => None
      | c :: r =>
          if c =? 34 then Some ([], r)
          else
            match lit_char s with
            | None => None
            | Some (x, r) =>
                match lit_body fuel' r with
                | None => None
                | Some (l, r') => Some (x :: l, r')
                end
            end
      end
  end.
(** a string literal at the beginning of [s] *)
Definition literal (s : str) : option (str * str) :=
  match s with c :: r => if c =? 34 then lit_body (length s) r else None | [] => None end.

(** the longest prefix of characters in [p] *)
Fixpoint span (p : Z -> bool) (s : str) : str * str :=
  match s with
  | [] => ([], [])
  | c :: r => if p c then let (a, b) := span p r in (c :: a, b) else ([], s)
  end.
Definition is_space (c : Z) : bool := (c =? 32) || (c =? 10) || (c =? 9).
Definition spaces (s : str) : str := snd (span is_space s).
Definition expect (c : Z) (s : str) : option str :=
  match spaces s with x :: r => if x =? c then Some r else None | [] => None end.

Definition digit (c : Z) : bool := (48 <=? c) && (c <? 58).
Definition number (l : str) : Z := fold_left (fun a c => a * 10 + (c - 48)) l 0.
Definition int_lit (s : str) : option (Z * str) :=
  let neg := match s with c :: _ => c =? 45 | [] => false end in
  let s := if neg then tl s else s in
  let '(l, r) := span digit s in
  match l with
  | [] => None
  | _ => Some (if neg then - number l else number l, r)
  end.

(** Tokens other than strings: what follows up to a separator *)
Definition token_char (c : Z) : bool := negb ((c =? 44) || (c =? 41) || (c =? 93) || is_space c).

Definition find_field (fs : list rfield) (n : str) : option rfield :=
  find (fun f => str_eqb (rf_cap f) n) fs.
Definition rfield_type (f : rfield) : rty :=
  match rf_kind f with KSlot t _ _ => t | KGrp c _ => RStruct c end.

Section parse.
  Variable S : schema.

  (** A list of things, each read by [p] *)
  Fixpoint parse_seq {A} (fuel : nat) (p : str -> option (A * str)) (close : Z) (s : str)
    : option (list A * str) :=
    match fuel with
    | O => None
    | Datatypes.S fuel' =>
        match p s with
        | None => None
        | Some (a, r) =>
            match expect 44 r with
            | Some r' =>
                match parse_seq fuel' p close r' with
                | Some (l, r'') => Some (a :: l, r'')
                | None => None
                end
            | None => match expect close r with Some r' => Some ([a], r') | None => None end
            end
        end
    end.
  Definition parse_list {A} (p : str -> option (A * str)) (open close : Z) (s : str)
    : option (list A * str) :=
    match expect open s with
    | None => None
    | Some r =>
        match expect close r with
        | Some r' => Some ([], r')
        | None => parse_seq (length s) p close r
        end
    end.

  Fixpoint parse (fuel : nat) (t : rty) (s0 : str) : option (tval * str) :=
    match fuel with
    | O => None
    | Datatypes.S fuel' =>
        let s := spaces s0 in
        match t with
        | RVoid => let '(w, r) := span token_char s in if str_eqb w (lit "void") then Some (XVoid, r) else None
        | RBool =>
            let '(w, r) := span token_char s in
            if str_eqb w (lit "true") then Some (XBool true, r)
            else if str_eqb w (lit "false") then Some (XBool false, r) else None
        | RPrim _ => match int_lit s with Some (z, r) => Some (XInt z, r) | None => None end
        | RFloat32 | RFloat64 => let '(w, r) := span token_char s in if str_eqb w [] then None else Some (XFloat w, r)
        | REnum _ _ caps =>
            let '(w, r) := span ident_char s in
            if existsb (str_eqb w) caps then Some (XEnum w, r) else None
        | RText _ => match literal s with Some (l, r) => Some (XText l, r) | None => None end
        | RData => match literal s with Some (l, r) => Some (XData (map Zb l), r) | None => None end
        | RStruct c =>
            let field s :=
              let '(n, r) := span ident_char (spaces s) in
              match find_field (rc_fields (S c)) n, expect 61 r with
              | Some f, Some r' =>
                  match parse fuel' (rfield_type f) r' with
                  | Some (x, r'') => Some ((n, x), r'')
                  | None => None
                  end
              | _, _ => None
              end in
            match parse_list field 40 41 s with Some (l, r) => Some (XStruct l, r) | None => None end
        | RList t' => match parse_list (parse fuel' t') 91 93 s with Some (l, r) => Some (XList l, r) | None => None end
        | RAny => None
        end
    end.
End parse.

(** ** What can be read back *)

(** texts without newlines in which every backslash is followed by a single
    quote, members of enums that have the same name in Python and in the
    schema, floats whose text has no separator *)
Definition clean_text (s : str) : Prop :=
  ~ In 10 s /\ forall i, nth_error s i = Some 92 -> nth_error s (S i) = Some 39.
Inductive clean (S : schema) : rty -> tval -> Prop :=
| clean_void : clean S RVoid XVoid
| clean_bool : forall b, clean S RBool (XBool b)
| clean_int : forall f z, clean S (RPrim f) (XInt z)
| clean_f32 : forall s, s <> [] -> forallb token_char s = true -> clean S RFloat32 (XFloat s)
| clean_f64 : forall s, s <> [] -> forallb token_char s = true -> clean S RFloat64 (XFloat s)
| clean_enum : forall c ms caps s, In s caps -> forallb ident_char s = true -> s <> [] -> clean S (REnum c ms caps) (XEnum s)
| clean_text_ : forall u s, clean_text s -> clean S (RText u) (XText s)
| clean_data : forall b, clean S RData (XData b)
| clean_struct : forall c l,
    (forall n x, In (n, x) l -> ident n = true /\ exists f, find_field (rc_fields (S c)) n = Some f) ->
    (forall n x f, In (n, x) l -> find_field (rc_fields (S c)) n = Some f -> clean S (rfield_type f) x) ->
    clean S (RStruct c) (XStruct l)
| clean_list : forall t l, (forall x, In x l -> clean S t x) -> clean S (RList t) (XList l).
