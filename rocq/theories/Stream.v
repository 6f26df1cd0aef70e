(** Model of capnpy/buffered.py: BufferedStream, BufferedSocket, StringBuffer. *)
From Verif Require Import Base Message.

(** ** The specification: an ideal byte stream, whose state is simply the
    bytes not yet read *)

Definition newline : byte := x0a.

Definition ideal_read (n : Z) (r : bytes) : bytes * bytes :=
  (firstn (Z.to_nat n) r, skipn (Z.to_nat n) r).

Definition ideal_readall (r : bytes) : bytes * bytes := (r, []).

(** Everything up to the first newline included (everything if there is none). *)
Fixpoint ideal_readline (r : bytes) : bytes * bytes :=
  match r with
  | [] => ([], [])
  | b :: r' =>
      if Byte.eqb b newline then ([b], r')
      else let (l, rest) := ideal_readline r' in (b :: l, rest)
  end.

(** Calls made by a user of a reader, and how they are run: the list of the
    results. *)
Inductive rop := RRead (n : Z) | RReadAll | RReadLine.

Section run.
  Context {St : Type}.
  Variables (read : Z -> St -> bytes * St) (readall readline : St -> bytes * St).
  Definition run_op (o : rop) (st : St) : bytes * St :=
    match o with
    | RRead n => read n st
    | RReadAll => readall st
    | RReadLine => readline st
    end.
  Fixpoint run_ops (ops : list rop) (st : St) : list bytes :=
    match ops with
    | [] => []
    | o :: r => let (out, st) := run_op o st in out :: run_ops r st
    end.
End run.

(** ** Python's bytes.find(b'\n', i) for i >= 0 *)
Fixpoint find_nl (l : bytes) : option nat :=
  match l with
  | [] => None
  | b :: r => if Byte.eqb b newline then Some O else option_map S (find_nl r)
  end.
Definition py_find_nl (l : bytes) (i : Z) : Z :=
  match find_nl (skipn (Z.to_nat i) l) with
  | None => -1
  | Some k => i + Z.of_nat k
  end.

(** ** BufferedStream

    The transport is the list of the chunks that _readchunk will return;
    when it is exhausted _readchunk returns b'' forever (the connection is
    closed). An empty chunk in the list is a b'' returned before the end. *)
Record bs := mkbs { bs_buf : bytes; bs_i : Z; bs_src : list bytes }.

(** buffered.py:13-15 *)
Definition bs_init (src : list bytes) : bs := {| bs_buf := []; bs_i := 0; bs_src := src |}.

(** buffered.py:23-28, the loop of _fillbuf: the parts appended, joined, and
    the remaining chunks *)
Fixpoint bs_fill_loop (total size : Z) (src : list bytes) : bytes * list bytes :=
  if total <? size then
    match src with
    | [] => ([], [])
    | part :: src' =>
        match part with
        | [] => ([], src')
        | _ =>
            let (ps, rest) := bs_fill_loop (total + blen part) size src' in
            (part ++ ps, rest)
        end
    end
  else ([], src).

(** buffered.py:20-31 *)
Definition bs_fillbuf (size : Z) (st : bs) : bs :=
  let part0 := py_from (bs_buf st) (bs_i st) in
  let (ps, src) := bs_fill_loop (blen part0) size (bs_src st) in
  {| bs_buf := part0 ++ ps; bs_i := 0; bs_src := src |}.

(** buffered.py:37-41, the loop of _readall *)
Fixpoint bs_readall_loop (src : list bytes) : bytes * list bytes :=
  match src with
  | [] => ([], [])
  | part :: src' =>
      match part with
      | [] => ([], src')
      | _ => let (ps, rest) := bs_readall_loop src' in (part ++ ps, rest)
      end
  end.

(** buffered.py:33-42 *)
Definition bs_readall (st : bs) : bytes * bs :=
  let part0 := py_from (bs_buf st) (bs_i st) in
  let (ps, src) := bs_readall_loop (bs_src st) in
  (part0 ++ ps, {| bs_buf := []; bs_i := 0; bs_src := src |}).

(** buffered.py:47-57 (read, size <> -1) *)
Definition bs_read (size : Z) (st : bs) : bytes * bs :=
  let i := bs_i st in
  let j := i + size in
  if blen (bs_buf st) <? j then
    let st := bs_fillbuf size st in
    (py_slice (bs_buf st) 0 size, {| bs_buf := bs_buf st; bs_i := size; bs_src := bs_src st |})
  else
    (py_slice (bs_buf st) i j, {| bs_buf := bs_buf st; bs_i := j; bs_src := bs_src st |}).

(** buffered.py:71-83, the loop of readline: the parts joined, the new buffer
    and the remaining chunks *)
Fixpoint bs_readline_loop (src : list bytes) : bytes * bytes * list bytes :=
  match src with
  | [] => ([], [], [])
  | part :: src' =>
      match part with
      | [] => ([], [], src')
      | _ =>
          let j := py_find_nl part 0 in
          if negb (j =? -1) then (py_slice part 0 (j + 1), py_from part (j + 1), src')
          else
            let '(ps, buf, rest) := bs_readline_loop src' in
            (part ++ ps, buf, rest)
      end
  end.

(** buffered.py:59-85 *)
Definition bs_readline (st : bs) : bytes * bs :=
  let i := bs_i st in
  let j := py_find_nl (bs_buf st) i in
  if negb (j =? -1) then
    (py_slice (bs_buf st) i (j + 1), {| bs_buf := bs_buf st; bs_i := j + 1; bs_src := bs_src st |})
  else
    let part0 := py_from (bs_buf st) i in
    let '(ps, buf, src) := bs_readline_loop (bs_src st) in
    (part0 ++ ps, {| bs_buf := buf; bs_i := 0; bs_src := src |}).

(** ** StringBuffer.readline: buffered.py:147-155 *)
Definition sb_readline (st : sb_state) : bytes * sb_state :=
  let (s, i) := st in
  let j := py_find_nl s i + 1 in
  if j =? 0 then (py_from s i, (s, blen s))
  else (py_slice s i j, (s, j)).

(** ** BufferedSocket, the writing side: the pending parts, and everything
    given to sock.sendall so far (successful sends) *)
Record bsock := mkbsock { w_buf : list bytes; w_sent : bytes }.

Inductive wop := WWrite (data : bytes) | WFlush.

(** buffered.py:114-115 (write) and 117-120 (flush, sendall succeeds) *)
Definition w_step (o : wop) (st : bsock) : bsock :=
  match o with
  | WWrite data => {| w_buf := w_buf st ++ [data]; w_sent := w_sent st |}
  | WFlush =>
      let data := concat (w_buf st) in
      {| w_buf := []; w_sent := w_sent st ++ data |}
  end.

Definition w_run (ops : list wop) (st : bsock) : bsock :=
  fold_left (fun st o => w_step o st) ops st.

(** buffered.py:117-120 when sendall raises after having sent the first [k]
    bytes: self.wbuf is not emptied *)
Definition w_flush_fail (k : nat) (st : bsock) : bsock :=
  {| w_buf := w_buf st; w_sent := w_sent st ++ firstn k (concat (w_buf st)) |}.
