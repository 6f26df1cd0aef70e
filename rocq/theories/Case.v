(** Model of capnpy/convert_case.py and of the naming part of
    compiler/module.py. Identifiers are lists of ASCII codes (as_identifier,
    compiler/util.py:3-31, refuses anything else). *)
From Verif Require Import Base.

Definition str := list Z.
Definition is_upper (c : Z) : bool := (65 <=? c) && (c <=? 90).
Definition is_lower (c : Z) : bool := (97 <=? c) && (c <=? 122).
Definition is_digit (c : Z) : bool := (48 <=? c) && (c <=? 57).
Definition underscore : Z := 95.

(** convert_case.py:4 and 7: A.sub(r'\1_\2', name) with
    A = (.)([A-Z][a-z]+): leftmost non-overlapping matches, [a-z]+ greedy,
    . does not match a newline. [inrun] is true while the lower case letters
    of a match are being consumed. *)
Fixpoint sub_A (inrun : bool) (s : str) : str :=
  match s with
  | [] => []
  | c :: r =>
      if inrun && is_lower c then c :: sub_A true r
      else
        match r with
        | u :: ((l :: _) as r') =>
            if negb (c =? 10) && is_upper u && is_lower l
            then c :: underscore :: u :: sub_A true r'
            else c :: sub_A false r
        | _ => c :: sub_A false r
        end
  end.

(** convert_case.py:5 and 8: B.sub(r'\1_\2', s1) with B = ([a-z0-9])([A-Z]) *)
Fixpoint sub_B (s : str) : str :=
  match s with
  | [] => []
  | c :: r =>
      match r with
      | u :: r' =>
          if (is_lower c || is_digit c) && is_upper u
          then c :: underscore :: u :: sub_B r'
          else c :: sub_B r
      | [] => [c]
      end
  end.

(** str.lower() on ASCII *)
Definition lower1 (c : Z) : Z := if is_upper c then c + 32 else c.
Definition lower (s : str) : str := map lower1 s.

(** convert_case.py:6-8 *)
Definition from_camel_case (name : str) : str := lower (sub_B (sub_A false name)).

(** ** Specification *)

(** [inserted a b]: [b] is [a] with some underscores inserted. *)
Inductive inserted : str -> str -> Prop :=
| ins_nil : inserted [] []
| ins_keep : forall c a b, inserted a b -> inserted (c :: a) (c :: b)
| ins_new : forall a b, inserted a b -> inserted a (underscore :: b).

(** The specification has its own classes of characters: *)
Definition capital (c : Z) : bool := existsb (Z.eqb c) [65; 66; 67; 68; 69; 70; 71; 72; 73; 74; 75; 76; 77; 78; 79; 80; 81; 82; 83; 84; 85; 86; 87; 88; 89; 90].
Definition small (c : Z) : bool := existsb (fun a => c =? a + 32) [65; 66; 67; 68; 69; 70; 71; 72; 73; 74; 75; 76; 77; 78; 79; 80; 81; 82; 83; 84; 85; 86; 87; 88; 89; 90].
Definition numeral (c : Z) : bool := existsb (Z.eqb c) [48; 49; 50; 51; 52; 53; 54; 55; 56; 57].
Definition to_small (c : Z) : Z := if capital c then c + 32 else c.

(** Names in ordinary camelCase: letters and digits, never two capital letters
    in a row; and what is expected of them: every capital after the first
    character becomes an underscore and the small letter. *)
Definition is_alnum (c : Z) : bool := is_upper c || is_lower c || is_digit c.
Fixpoint camel_simple (s : str) : Prop :=
  match s with
  | [] => True
  | c :: r =>
      match r with
      | [] => True
      | u :: _ => (capital c || small c || numeral c) = true /\ (capital c = true -> capital u = false) /\ camel_simple r
      end
  end.
Fixpoint camel_words (s : str) : str :=
  match s with
  | [] => []
  | c :: r =>
      match r with
      | u :: _ => to_small c :: (if capital u then [underscore] else []) ++ camel_words r
      | [] => [to_small c]
      end
  end.

(** Which letters get an underscore, for all names: a capital after a small
    letter or a digit, and a capital before a small letter (except at the
    beginning and after a newline, which . does not match). *)
Definition splits (prev : option Z) (u : Z) (r : str) : bool :=
  match prev with
  | None => false
  | Some c => capital u && (small c || numeral c ||
                (negb (c =? 10) && match r with l :: _ => small l | [] => false end))
  end.
Fixpoint snake (prev : option Z) (s : str) : str :=
  match s with
  | [] => []
  | u :: r => (if splits prev u r then [underscore] else []) ++ to_small u :: snake (Some u) r
  end.

(** A name without underscores. *)
Definition squeeze (s : str) : str := filter (fun c => negb (c =? underscore)) s.

(** ** keyword mangling: module.py:167-170, with Python 3's keyword.kwlist *)
Section mangle.
  Variable kwlist : list str.
  Definition str_eqb (a b : str) : bool := if list_eq_dec Z.eq_dec a b then true else false.
  Definition mangle_name (name : str) : str :=
    if existsb (str_eqb name) kwlist then name ++ [underscore] else name.

  (** module.py:148-158 *)
  Definition py_field_name (convert_case : bool) (name : str) : str :=
    mangle_name (if convert_case then from_camel_case name else name).
End mangle.
