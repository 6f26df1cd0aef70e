(** Model of the decode command (capnpy/__main__.py:45-67) and of the file
    adapter of the Cython loader (capnpy/filelike.py:42-56). *)
From Verif Require Import Base Spec Ptr Segment Struct Message.

Section decode.
  Variable St : Type.
  Variable read : Z -> St -> bytes * St.
  (** obj.shortrepr(): the text printed, or the exception it raises *)
  Variable T : Type.
  Variable shortrepr : obj -> res T.

  (** __main__.py:54-65: the lines printed and how the loop ends: [None] when
      the command ends normally, [Some e] when the exception [e] leaves it.
      [None.shortrepr()] is an AttributeError. Progress messages on stderr are
      left out; [fuel] bounds the number of messages. *)
  Fixpoint decode (fuel : nat) (st : St) : list T * option exn :=
    match fuel with
    | O => ([], Some OutOfFuel)
    | S fuel' =>
        match load St read st with
        | (Err ValueError, _) => ([], None)
        | (Err e, _) => ([], Some e)
        | (Ok None, _) => ([], Some AttributeError)
        | (Ok (Some o), st) =>
            match shortrepr o with
            | Err e => ([], Some e)
            | Ok line => let (l, r) := decode fuel' st in (line :: l, r)
            end
        end
    end.
End decode.

(** filelike.py:42-56. A duck-typed file: read and readline, each giving a
    Python object and the new state. [PyMethod] is the bound method object
    f.readline itself. *)
Inductive pyobj := PyBytes (b : bytes) | PyMethod.
Section adapter.
  Variable St : Type.
  Variable f_read : Z -> St -> bytes * St.
  Variable f_readline : St -> bytes * St.

  (** the file itself *)
  Definition file_readline (st : St) : pyobj * St :=
    let (b, st) := f_readline st in (PyBytes b, st).
  (** filelike.py:52-53 *)
  Definition adapter_read (size : Z) (st : St) : bytes * St := f_read size st.
  (** filelike.py:55-56: [return self._readline], the call is missing *)
  Definition adapter_readline (st : St) : pyobj * St := (PyMethod, st).
End adapter.
