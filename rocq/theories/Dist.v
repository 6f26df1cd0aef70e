(** Model of DistutilsCompiler.compile (compiler/compiler.py:298-322) over
    histories of edits, clock ticks, compilations and crashes. *)
From Verif Require Import Base Case Options.

(** One schema file and its two possible outputs, foo.py and foo.pyx.
    [env] stands for everything else the output depends on: the imported
    schemas, the versions of capnp and capnpy. A file is (content, mtime). *)
Record dstate := mkd {
  d_now : Z;
  d_env : Z;
  d_in : str * Z;
  d_py : option (str * Z);
  d_pyx : option (str * Z) }.
Definition d_out (s : dstate) (px : bool) := if px then d_pyx s else d_py s.
Definition set_out (s : dstate) (px : bool) (x : str * Z) : dstate :=
  if px then mkd (d_now s) (d_env s) (d_in s) (d_py s) (Some x)
  else mkd (d_now s) (d_env s) (d_in s) (Some x) (d_pyx s).

(** generate_py_source (compiler.py:72-80): None if it raises. The text
    contains the time (request.py:44). *)
Definition generator := str -> Z -> bool -> option opts -> Z -> option str.

(** compiler.py:305-322; [Err]: the exception of the generator *)
Definition compile (gen : generator) (s : dstate) (px : bool) (o : option opts) : res unit * dstate :=
  let fresh :=
    match d_out s px with
    | Some (_, mt) => mt >? snd (d_in s)
    | None => false
    end in
  if fresh then (Ok tt, s)
  else
    match gen (fst (d_in s)) (d_env s) px o (d_now s) with
    | None => (Err ValueError, s)
    | Some src => (Ok tt, set_out s px (src, d_now s))
    end.

(** the same, interrupted while the output is being written *)
Definition compile_crash (gen : generator) (s : dstate) (px : bool) (o : option opts) (k : nat) : dstate :=
  if match d_out s px with Some (_, mt) => mt >? snd (d_in s) | None => false end then s
  else
    match gen (fst (d_in s)) (d_env s) px o (d_now s) with
    | None => s
    | Some src => set_out s px (firstn k src, d_now s)
    end.

Inductive dop :=
| DTick (d : Z)                (* time passes (or the clock is set back) *)
| DEdit (c : str)              (* the schema is written *)
| DRestore (c : str) (mt : Z)  (* the schema is replaced, with its old mtime *)
| DEnv (e : Z)                 (* an imported schema, or a tool, changes *)
| DCompile (px : bool) (o : option opts)
| DCrash (px : bool) (o : option opts) (k : nat).

Definition dstep (gen : generator) (s : dstate) (x : dop) : dstate :=
  match x with
  | DTick d => mkd (d_now s + d) (d_env s) (d_in s) (d_py s) (d_pyx s)
  | DEdit c => mkd (d_now s) (d_env s) (c, d_now s) (d_py s) (d_pyx s)
  | DRestore c mt => mkd (d_now s) (d_env s) (c, mt) (d_py s) (d_pyx s)
  | DEnv e => mkd (d_now s) e (d_in s) (d_py s) (d_pyx s)
  | DCompile px o => snd (compile gen s px o)
  | DCrash px o k => compile_crash gen s px o k
  end.
Definition drun gen (s : dstate) (l : list dop) : dstate := fold_left (dstep gen) l s.

(** The histories for which the mtime test is right: the clock does not go
    backwards, only the schema itself is edited, every compilation in mode
    [px] uses the options [op px], and none is interrupted. *)
Definition plain (op : bool -> option opts) (x : dop) : Prop :=
  match x with
  | DTick d => 0 <= d
  | DEdit _ => True
  | DCompile px o => o = op px
  | _ => False
  end.

(** the output is what the generator gives for the current schema, at some time *)
Definition up_to_date (gen : generator) (s : dstate) (px : bool) (o : option opts) : Prop :=
  exists text mt t, d_out s px = Some (text, mt) /\ gen (fst (d_in s)) (d_env s) px o t = Some text.

(** ** Proofs *)
Definition inv (gen : generator) (op : bool -> option opts) (s : dstate) : Prop :=
  snd (d_in s) <= d_now s /\
  forall px text mt, d_out s px = Some (text, mt) ->
    mt <= d_now s /\
    (snd (d_in s) < mt -> exists t, gen (fst (d_in s)) (d_env s) px (op px) t = Some text).

Lemma out_set s px px' x : d_out (set_out s px x) px' = if Bool.eqb px px' then Some x else d_out s px'.
Proof. destruct px, px'; reflexivity. Qed.
Lemma set_fields s px x : d_now (set_out s px x) = d_now s /\ d_in (set_out s px x) = d_in s /\ d_env (set_out s px x) = d_env s.
Proof. destruct px; repeat split. Qed.

Lemma compile_inv gen op s px : inv gen op s -> inv gen op (snd (compile gen s px (op px))).
Proof.
  intros (T & F). unfold compile.
  destruct (match d_out s px with Some (_, mt) => mt >? snd (d_in s) | None => false end); [split; assumption|].
  destruct (gen (fst (d_in s)) (d_env s) px (op px) (d_now s)) as [src|] eqn:G; [|split; assumption]. cbn [snd].
  destruct (set_fields s px (src, d_now s)) as (A & B & C). split; [now rewrite A, B|].
  intros px' text mt H. rewrite out_set in H. rewrite A, B, C. destruct (Bool.eqb px px') eqn:E.
  - apply Bool.eqb_prop in E. subst px'. injection H as <- <-. split; [lia|]. eauto.
  - apply F, H.
Qed.

Lemma run_inv gen op : forall l s, Forall (plain op) l -> inv gen op s -> inv gen op (drun gen s l).
Proof.
  induction l as [|x l IH]; intros s P I; [exact I|]. inversion P as [|y r Hx Hr]. subst. cbn. apply IH; [exact Hr|].
  destruct x as [d|c|c mt|e|px o|px o k]; cbn [plain] in Hx; try contradiction; cbn [dstep].
  - destruct I as (T & F). split; cbn; [lia|]. intros px text mt H.
    destruct (F px text mt) as (A & B); [destruct px; exact H|]. split; [lia|exact B].
  - destruct I as (T & F). split; cbn; [lia|]. intros px text mt H.
    destruct (F px text mt) as (A & B); [destruct px; exact H|]. split; [lia|lia].
  - subst o. apply compile_inv, I.
Qed.

Theorem compile_current gen op s0 l px s :
  d_py s0 = None -> d_pyx s0 = None -> snd (d_in s0) <= d_now s0 ->
  Forall (plain op) l -> compile gen (drun gen s0 l) px (op px) = (Ok tt, s) ->
  up_to_date gen s px (op px).
Proof.
  intros N1 N2 T P H.
  assert (I : inv gen op (drun gen s0 l)).
  { apply run_inv; [exact P|]. split; [exact T|]. intros px' text mt E. exfalso. destruct px'; cbn in E; congruence. }
  set (s1 := drun gen s0 l) in *. unfold compile in H.
  destruct (match d_out s1 px with Some (_, mt) => mt >? snd (d_in s1) | None => false end) eqn:Fr.
  - injection H as <-. destruct (d_out s1 px) as [(text, mt)|] eqn:D; [|discriminate].
    destruct I as (_ & F). destruct (F _ _ _ D) as (_ & G). destruct G as (t & G); [lia|].
    exists text, mt, t. auto.
  - destruct (gen (fst (d_in s1)) (d_env s1) px (op px) (d_now s1)) as [src|] eqn:G; [|discriminate].
    injection H as <-. destruct (set_fields s1 px (src, d_now s1)) as (A & B & C).
    exists src, (d_now s1), (d_now s1). rewrite out_set, Bool.eqb_reflx, B, C. auto.
Qed.

(** nothing is written again before the schema is edited *)
Theorem compile_again gen s px o s1 d :
  compile gen s px o = (Ok tt, s1) -> 0 < d -> snd (d_in s) <= d_now s ->
  forall s2, s2 = dstep gen s1 (DTick d) ->
  (snd (d_in s) < d_now s -> forall o', compile gen s2 px o' = (Ok tt, s2)) /\
  (forall px', px' <> px -> d_out s1 px' = d_out s px') /\ d_in s1 = d_in s.
Proof.
  intros H Hd T s2 ->. unfold compile in H.
  destruct (match d_out s px with Some (_, mt) => mt >? snd (d_in s) | None => false end) eqn:Fr.
  - injection H as <-. split; [|auto]. intros _ o'. unfold compile.
    replace (d_out (dstep gen s (DTick d)) px) with (d_out s px) by (destruct px; reflexivity).
    change (d_in (dstep gen s (DTick d))) with (d_in s). rewrite Fr. reflexivity.
  - destruct (gen (fst (d_in s)) (d_env s) px o (d_now s)) as [src|]; [|discriminate]. injection H as <-.
    destruct (set_fields s px (src, d_now s)) as (A & B & C). split.
    + intros L o'. unfold compile.
      replace (d_out (dstep gen (set_out s px (src, d_now s)) (DTick d)) px) with (Some (src, d_now s))
        by (destruct px; reflexivity).
      change (d_in (dstep gen (set_out s px (src, d_now s)) (DTick d))) with (d_in (set_out s px (src, d_now s))).
      rewrite B. replace (d_now s >? snd (d_in s)) with true by lia. reflexivity.
    + split; [|exact B]. intros px' N. rewrite out_set. destruct px, px'; cbn; congruence.
Qed.

Theorem compile_failure gen s px o e s' : compile gen s px o = (Err e, s') ->
  s' = s /\ gen (fst (d_in s)) (d_env s) px o (d_now s) = None.
Proof.
  unfold compile. destruct (match d_out s px with Some (_, mt) => mt >? snd (d_in s) | None => false end); [discriminate|].
  destruct (gen (fst (d_in s)) (d_env s) px o (d_now s)); [discriminate|]. intros H. injection H as _ <-. auto.
Qed.
