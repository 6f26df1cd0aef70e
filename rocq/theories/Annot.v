(** Model of the annotation queries of the compiler and of the reflection API:
    compiler/module.py:25-95 (the dictionaries of a ModuleGenerator,
    register_extra_annotation, has_annotation), compiler/struct_.py:31-41 (the
    registration of $Py.key on groups) and reflection.py:13-75. *)
From Coq Require Import Strings.String.
From Verif Require Import Base Spec Ptr Segment Struct Case Enum Ctor Const.
From Coq Require Import Lists.List.
Local Notation length := Datatypes.length.

(** schema.Annotation: the id of the annotation, and its value (a
    schema.Value) *)
Record ann := mkann { an_id : Z; an_value : obj }.

(** What an entity is as a key of the dictionary. schema_extended.py:45-51: a
    node is its id; 57-77: a field is its name and its codeOrder, whatever
    its struct; an enumerant has no __hash__ (struct_.py:313-318: TypeError).
    A node and a field with the same hash are not confused here. *)
Inductive ekey := KNode (id : Z) | KField (name : str) (order : Z) | KUnhashable.
Definition key_eqb (a b : ekey) : bool :=
  match a, b with
  | KNode x, KNode y => x =? y
  | KField n x, KField n' y => str_eqb n n' && (x =? y)
  | _, _ => false
  end.

(** A Node, a Field or an Enumerant: its key, and the list in its
    [annotations] field (None: null pointer) *)
Record entity := mkent { e_key : ekey; e_anns : option (list ann) }.

(** module.py:37 [extra_annotations = defaultdict(list)] *)
Definition extra := list (ekey * list ann).
Fixpoint ex_get (x : extra) (k : ekey) : option (list ann) :=
  match x with
  | [] => None
  | (k', l) :: r => if key_eqb k k' then Some l else ex_get r k
  end.
Fixpoint ex_set (x : extra) (k : ekey) (l : list ann) : extra :=
  match x with
  | [] => [(k, l)]
  | (k', l') :: r => if key_eqb k k' then (k', l) :: r else (k', l') :: ex_set r k l
  end.

(** module.py:71-72. The list of an absent key is created empty. *)
Definition register_extra_annotation (x : extra) (k : ekey) (a : ann) : res extra :=
  match k with
  | KUnhashable => Err TypeError
  | _ => Ok (ex_set x k (match ex_get x k with Some l => l | None => [] end ++ [a]))
  end.

(** module.py:88-94: the loop *)
Fixpoint first_with (id : Z) (l : list ann) : option ann :=
  match l with
  | [] => None
  | a :: r => if an_id a =? id then Some a else first_with id r
  end.

(** module.py:77-95. [annotations] is the registered list itself when there is
    one, so that [+=] extends the registered list; it is a new list
    otherwise. *)
Definition m_has_annotation (x : extra) (e : entity) (cls : Z) : extra * option ann :=
  let registered := match e_key e with KUnhashable => None | k => ex_get x k end in
  let annotations := match registered with Some l => l | None => [] end in
  match e_anns e with
  | Some own =>
      let annotations := annotations ++ own in
      (match registered with Some _ => ex_set x (e_key e) annotations | None => x end,
       first_with cls annotations)
  | None => (x, first_with cls annotations)
  end.

(** ** The reflection API *)

(** module.py:46-48: [allnodes[node.id] = node], in order *)
Definition node := (Z * entity)%type.
Fixpoint node_get (l : list node) (id : Z) : option entity :=
  match l with
  | [] => None
  | (i, e) :: r => match node_get r id with Some x => Some x | None => if i =? id then Some e else None end
  end.

(** The argument of get_node and of get_annotation (reflection.py:40-54,
    67-73): an integer, an object with __capnpy_id__, any other object, or an
    entity of the schema *)
Inductive target := ByInt (id : Z) | ByClass (id : Z) | Other | Entity (e : entity).

(** ReflectionData: [rd_build] is what building the ModuleGenerator gives
    (module.py:25-44): the nodes, groups of $Py.group included, or the
    exception of an ill-formed schema. [rd_m]: _m (reflection.py:21-34), the
    generator once it is built, with its extra annotations. *)
Record rdata := mkrd { rd_build : res (list node); rd_m : option (list node * extra) }.

(** reflection.py:22-34 *)
Definition rd_module (r : rdata) : rdata * res (list node * extra) :=
  match rd_m r with
  | Some m => (r, Ok m)
  | None =>
      match rd_build r with
      | Ok nodes => ({| rd_build := rd_build r; rd_m := Some (nodes, []) |}, Ok (nodes, []))
      | Err e => (r, Err e)
      end
  end.

(** __capnpy_id__ of the class of an entity (schema.py:365, 1076, 1373):
    Node, Field and Enumerant are generated classes themselves *)
Definition class_id (e : entity) : Z :=
  match e_key e with
  | KNode _ => 0xe682ab4cf923a417
  | KField _ _ => 0x9aad50a41f4af45f
  | KUnhashable => 0x978a7cebdc549a4d
  end.

(** reflection.py:40-54. The id is found before [self.m] is looked at. *)
Definition get_node (r : rdata) (t : target) : rdata * res entity :=
  match match t with ByInt id | ByClass id => Some id | Entity e => Some (class_id e) | Other => None end with
  | None => (r, Err AttributeError)
  | Some id =>
      let (r, m) := rd_module r in
      (r, do m <- m; match node_get (fst m) id with Some e => Ok e | None => Err KeyError end)
  end.

(** reflection.py:67-73 (_get_annotation); [cls] is anncls.__capnpy_id__ *)
Definition find_annotation (r : rdata) (t : target) (cls : Z) : rdata * res (option ann) :=
  let (r, e) := match t with Entity e => (r, Ok e) | _ => get_node r t end in
  match e with
  | Err x => (r, Err x)
  | Ok e =>
      let (r, m) := rd_module r in
      match m with
      | Err x => (r, Err x)
      | Ok (nodes, x) =>
          let (x', a) := m_has_annotation x e cls in
          ({| rd_build := rd_build r; rd_m := Some (nodes, x') |}, Ok a)
      end
  end.

(** reflection.py:56-60 *)
Definition get_annotation (r : rdata) (t : target) (cls : Z) : rdata * res gval :=
  let (r, a) := find_annotation r t cls in
  (r, do a <- a; match a with Some a => as_pyobj (an_value a) | None => Err KeyError end).

(** reflection.py:62-65 *)
Definition has_annotation (r : rdata) (t : target) (cls : Z) : rdata * res bool :=
  let (r, a) := find_annotation r t cls in
  (r, do a <- a; Ok (match a with Some _ => true | None => false end)).
