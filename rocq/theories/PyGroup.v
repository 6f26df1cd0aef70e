(** Model of $Py.key and $Py.group: compiler/struct_.py:31-41, 274-298
    (_emit_key_maybe), compiler/module.py:97-118 (handle_py_groups),
    schema_extended.py:170-208 (from_group_annotation),
    annotate_extended.py:29-34, compiler/field.py:59-62, 221-246. *)
From Coq Require Import Strings.String.
From Verif Require Import Base Spec Ptr Segment Struct List Case Ctor Options Loader.
From Coq Require Import Lists.List.
Local Notation length := Datatypes.length.

(** bytes.strip() without argument: ASCII whitespace on both sides *)
Definition is_space (c : Z) : bool := (c =? 32) || ((9 <=? c) && (c <=? 13)).
Fixpoint lstrip (s : str) : str :=
  match s with
  | c :: r => if is_space c then lstrip r else s
  | [] => []
  end.
Definition strip (s : str) : str := rev (lstrip (rev (lstrip s))).

(** [fn.strip() for fn in text.split(b',')] (struct_.py:285,
    schema_extended.py:180) *)
Definition names_of (text : str) : list str := map strip (Loader.split 44 text).

(** The fields of a class, with their names in the schema *)
Definition sfields := list (str * field).

(** {f.name: f for f in fields}[name] *)
Fixpoint field_get (fs : sfields) (name : str) : option field :=
  match fs with
  | [] => None
  | (n, f) :: r => match field_get r name with Some x => Some x | None => if str_eqb n name then Some f else None end
  end.

(** struct_.py:278-295: the fields of the key. [value]: the text of the
    annotation. *)
Definition key_fields (fs : sfields) (value : str) : res (list field) :=
  let allfields := map fst fs in
  let txt := strip value in
  let fieldnames := if str_eqb txt [42] then allfields else names_of txt in
  if negb (forallb (fun f => existsb (str_eqb f) allfields) fieldnames) then Err ValueError
  else mapM (fun n => match field_get fs n with Some f => Ok f | None => Err KeyError end) fieldnames.

(** obj.foo, for a slot (field.py:59-210) or a group (field.py:224-246) *)
Definition get_field (o : obj) (u : option Z) (f : field) : res gval :=
  match f with
  | FSlot _ _ _ _ _ _ _ => get_slot o u f
  | FGroup _ _ _ true _ _ => get_nullable o u f
  | FGroup _ _ _ false _ _ => do g <- get_group o u f; Ok (GObj g)
  end.

(** struct_.py:296-304: return (self.x, self.y,) *)
Definition key_tuple (o : obj) (u : option Z) (fs : list field) : res (list gval) := mapM (get_field o u) fs.

(** ** Groups of a void field *)

(** A struct node of the schema: its id, its fields, and those of its fields
    that have a $Py.group annotation, in order: name, field, text *)
Record pystruct := mkps { ps_id : Z; ps_node : struct_node; ps_fields : sfields; ps_groups : list (str * field * str) }.

(** What is registered for one of them: the id of the new node, its struct *)
Record pygroup := mkpg { pg_id : Z; pg_name : str; pg_field : field; pg_node : struct_node }.

(** schema_extended.py:170-208. [H]: hash() of a bytes object. The new struct
    has the sizes of its parent and no union. *)
Definition from_group_annotation (H : str -> Z) (ids : list Z) (p : pystruct) (name : str) (f : field) (value : str) : res pygroup :=
  do fs <- mapM (fun n => match field_get (ps_fields p) n with Some f => Ok f | None => Err KeyError end)
             (names_of (strip value));
  let id := ps_id p + H name mod 10000 in
  do _ <- py_assert (negb (existsb (Z.eqb id) ids));
  Ok {| pg_id := id; pg_name := name; pg_field := f;
        pg_node := {| sn_ds := sn_ds (ps_node p); sn_ps := sn_ps (ps_node p); sn_utag := None; sn_fields := fs |} |}.

Definition is_void (f : field) : bool := match f with FSlot _ _ _ TVoid _ _ _ => true | _ => false end.

(** module.py:112-118: the loop on the fields; annotate_extended.py:31-34 *)
Fixpoint groups_of (H : str -> Z) (ids : list Z) (p : pystruct) (l : list (str * field * str)) : res (list Z * list pygroup) :=
  match l with
  | [] => Ok (ids, [])
  | (name, f, value) :: r =>
      do _ <- py_assert (is_void f);
      do g <- from_group_annotation H ids p name f value;
      do (ids, gs) <- groups_of H (pg_id g :: ids) p r;
      Ok (ids, g :: gs)
  end.
(** module.py:111: the loop on the nodes there were at the beginning *)
Fixpoint handle_py_groups (H : str -> Z) (ids : list Z) (l : list pystruct) : res (list Z * list pygroup) :=
  match l with
  | [] => Ok (ids, [])
  | p :: r =>
      do (ids, gs) <- groups_of H ids p (ps_groups p);
      do (ids, gs') <- handle_py_groups H ids r;
      Ok (ids, gs ++ gs')
  end.

(** obj.g, where g is the void field: field.py:59-62, then 240-246 *)
Definition get_py_group (o : obj) (u : option Z) (g : pygroup) : res obj := get_group o u (pg_field g).
