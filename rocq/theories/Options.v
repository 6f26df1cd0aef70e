(** Model of Options.combine (annotate_extended.py:82-96) and of
    compute_options (compiler/module.py:59-67, compiler/node.py:55-59,
    compiler/struct_.py:15-23, compiler/enum.py:6-12). *)
From Verif Require Import Base.

(** annotate.capnp:17-39: the four options, as enum values *)
Record opts := mkopts { version_check : Z; convert_case : Z; text_type : Z; include_reflection_data : Z }.

(** annotate.capnp:17-27: BoolOption.notset is 2, TextType.notset is 0 *)
Definition bool_notset : Z := 2.
Definition text_notset : Z := 0.

(** annotate_extended.py:82-96, the loop over FIELDS unrolled *)
Definition combine (self other : opts) : opts := {|
  version_check :=
    if negb (version_check other =? bool_notset) then version_check other else version_check self;
  convert_case :=
    if negb (convert_case other =? bool_notset) then convert_case other else convert_case self;
  text_type :=
    if negb (text_type other =? text_notset) then text_type other else text_type self;
  include_reflection_data :=
    if negb (include_reflection_data other =? bool_notset)
    then include_reflection_data other else include_reflection_data self |}.

(** A node of the schema: its id, its $Py.options annotation if any, its
    nested nodes, its fields or enumerants (each with its own annotation). *)
Inductive onode := ONode (id : Z) (ann : option opts) (children : list onode) (fields : list onode).

(** compiler/module.py:59-67 (compute_options_generic): the options computed *)
Definition options_generic (ann : option opts) (parent_opt : opts) : opts :=
  match ann with
  | Some opt => combine parent_opt opt
  | None => parent_opt
  end.

(** compute_options: the assignments made to _node_options, in order *)
Fixpoint compute_options (t : onode) (parent_opt : opts) : list (Z * opts) :=
  match t with
  | ONode id ann children fields =>
      let opt := options_generic ann parent_opt in
      (id, opt)
      :: (fix all l := match l with [] => [] | c :: r => compute_options c opt ++ all r end) children
      ++ (fix all l := match l with [] => [] | c :: r => compute_options c opt ++ all r end) fields
  end.

(** ** Specification *)

(** [path t id anns]: the node [id] is in the tree [t], and [anns] are the
    annotations met from the root of [t] down to it, the nearest last. *)
Inductive path : onode -> Z -> list opts -> Prop :=
| path_here : forall id ann ch fs, path (ONode id ann ch fs) id (match ann with Some a => [a] | None => [] end)
| path_below : forall id ann ch fs c id' anns,
    In c (ch ++ fs) -> path c id' anns ->
    path (ONode id ann ch fs) id' ((match ann with Some a => [a] | None => [] end) ++ anns).

(** The value of one option: the last annotation of the list that sets it,
    the default if none does. *)
Fixpoint nearest (get : opts -> Z) (notset : Z) (anns : list opts) (dflt : Z) : Z :=
  match anns with
  | [] => dflt
  | a :: r => nearest get notset r (if get a =? notset then dflt else get a)
  end.
