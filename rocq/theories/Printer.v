(** Model of capnpy/printer.py (print_buffer, BufferPrinter) and of
    blob.py:47-56 (_print_buf), on Python 3. Texts are lists of code points;
    the result is the list of printed lines.

    Parameters: the ANSI codes of pypytools' Color (not part of the
    repository), str(d) and '{:<9.2E}'.format(d) of the double with the
    given bits. Lines printed before an exception are not kept. *)
From Coq Require Import Strings.String.
From Verif Require Import Base Spec Ptr Segment Builder Struct List Case Loader Repr.
From Coq Require Import Lists.List.
Local Notation length := Datatypes.length.

(** Where a line is printed: sys.stdout, or the stream of the printer *)
Inductive channel := Stdout | Stream.

Record colours := mkcolours {
  c_addr : Z -> str;          (* COLORS[i], printer.py:10-11 *)
  c_gray : str;
  c_yellow : str }.
Record float_texts := mkft { ft_str : Z -> str; ft_exp : Z -> str }.

Section printer.
  Variables (C : colours) (FT : float_texts).

  (** pypytools.jitview.Color.set *)
  Definition set_color (c s : str) : str := [27; 91] ++ c ++ [109] ++ s ++ [27; 91; 48; 48; 109].
  (** str.rjust, str.ljust, '{:>n}', '{:<n}' *)
  Definition spaces (n : Z) : str := repeat 32 (Z.to_nat n).
  Definition rjust (n : Z) (s : str) : str := spaces (n - blen s) ++ s.
  Definition ljust (n : Z) (s : str) : str := s ++ spaces (n - blen s).

  (** printer.py:31-38 *)
  Definition hex_digit (n : Z) : Z := if n <? 10 then 48 + n else 55 + n.     (* %X *)
  Definition hex_byte (b : byte) : str :=
    if bZ b =? 0 then set_color (c_gray C) (lit "00") else [hex_digit (bZ b / 16); hex_digit (bZ b mod 16)].
  Definition hex_col (w : bytes) : str := join_with (lit " ") (map hex_byte w).

  (** printer.py:40-43 *)
  Definition addr (x : Z) : str := set_color (c_addr C ((x / 8) mod 6)) (dec x).

  (** printer.py:45-51 *)
  Definition string_col (w : bytes) : str :=
    flat_map (fun b => if (32 <=? bZ b) && (bZ b <=? 127) then [bZ b] else set_color (c_gray C) (lit ".")) w.

  (** struct.unpack of a text that has to have 8 bytes *)
  Definition unpack8 (f : ifmt) (w : bytes) : res Z := if blen w =? 8 then Ok (fdec f w) else Err StructError.

  (** printer.py:53-58 *)
  Definition int64_col (w : bytes) : res str :=
    do v <- unpack8 Fq w; Ok (if v <? 65536 then dec v else set_color (c_gray C) (dec v)).

  (** printer.py:60-67 *)
  Definition float64_col (w : bytes) : res str :=
    do v <- unpack8 FQ w;
    let s := rjust 9 (ft_str FT v) in
    Ok (if 9 <? blen s then set_color (c_gray C) (ft_exp FT v) else ljust 9 s).

  (** printer.py:76-80 (if_in_range) *)
  Definition if_in_range (x min max : Z) : str := if (min <=? x) && (x <? max) then dec x else lit "?".

  (** printer.py:116-121 *)
  Definition list_tag (tag : Z) : str :=
    nth (Z.to_nat tag) [lit "v"; lit "bit"; lit "8"; lit "16"; lit "32"; lit "64"; lit "ptr"; lit "cmp"] (lit "?").

  (** printer.py:69-114 *)
  Definition ptr_col (off : Z) (w : bytes) : res str :=
    do p <- unpack8 Fq w;
    if negb ((kind p =? STRUCT) || (kind p =? LIST) || (kind p =? FAR)) then Ok (spaces 25)
    else if p =? 0 then Ok (ljust 25 (lit "NULL"))
    else
      let descr :=
        if kind p =? STRUCT then
          lit "struct " ++ rjust 4 (if_in_range (struct_data_size p) 0 100) ++ lit " " ++
          rjust 3 (if_in_range (struct_ptrs_size p) 0 100)
        else if kind p =? LIST then
          lit "list" ++ ljust 5 (lit "<" ++ list_tag (list_size_tag p) ++ lit ">") ++ lit " " ++
          rjust 5 (if_in_range (list_item_count p) 0 65536)
        else
          lit "far " ++ rjust 7 (dec (far_landing_pad p)) ++ lit " " ++
          rjust 3 (if_in_range (far_target p) 0 100) in
      let dest := if (-1000 <? offset p) && (offset p <? 1000) then ljust 16 (addr (deref p off)) else lit "?     " in
      let line := descr ++ lit " to " ++ dest in
      Ok (if existsb (Z.eqb 63) line then set_color (c_gray C) line else line).

  (** printer.py:123-132 *)
  Definition line (off : Z) (w : bytes) : res str :=
    do i <- int64_col w;
    do f <- float64_col w;
    do p <- ptr_col off w;
    Ok (rjust 16 (addr off) ++ lit ":  " ++ hex_col w ++ lit "  " ++ rjust 8 (string_col w) ++ lit "  " ++
        p ++ lit " " ++ f ++ lit "  " ++ i).

  (** printer.py:23-29 (pyrepr) on Python 3: s[0] is an int, which has no
      method isalnum *)
  Definition pyrepr (w : bytes) : res str := match w with [] => Err IndexError | _ => Err AttributeError end.

  (** printer.py:134-150; range(a, b) by its length and its first element *)
  Definition header : str :=
    rjust 5 (lit "Offset") ++ lit "  " ++ ljust 24 (lit " Hex view") ++ lit "  " ++ ljust 8 (lit "ASCII") ++ lit "  " ++
    ljust 23 (lit "Pointer") ++ lit " " ++ rjust 11 (lit "float64") ++ lit "  " ++ lit "int64".
  Fixpoint words (human : bool) (buf : bytes) (i : Z) (n : nat) : res (list (channel * str)) :=
    match n with
    | O => Ok []
    | S n =>
        let w := py_slice buf (i * 8) (i * 8 + 8) in
        do l <- (if human then line (i * 8) w else do s <- pyrepr w; Ok (rjust 5 (dec (i * 8)) ++ lit ": " ++ s));
        do r <- words human buf (i + 1) n;
        Ok ((Stream, l) :: r)
    end.
  Definition printbuf (buf : bytes) (start : Z) (end_ : option Z) (human : bool) : res (list (channel * str)) :=
    let end_ := match end_ with Some e => e | None => blen buf end in
    do l <- words human buf (start / 8) (Z.to_nat (end_ / 8 - start / 8));
    Ok ((if human then [(Stdout, set_color (c_yellow C) header)] else []) ++ l).

  (** printer.py:13-15, with start=0 *)
  Definition print_buffer (buf : bytes) (human : bool) : res (list (channel * str)) := printbuf buf 0 None human.

  (** blob.py:47-56 (_print_buf) of a struct; [end_]: Some None for None *)
  Definition print_buf (fuel : nat) (o : obj) (start : option Z) (end_ : option (option Z)) (human : bool)
    : res (list (channel * str)) :=
    let start := match start with Some s => s | None => o_off o end in
    do e <- match end_ with
            | None => o_get_end fuel o
            | Some None => Ok (blen (sbuf (o_seg o)))
            | Some (Some e) => Ok e
            end;
    printbuf (sbuf (o_seg o)) start (Some e) human.
End printer.
