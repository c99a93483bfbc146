(** What assembling a tree of source folders should produce, stated without the loop, the worker
    pool and the indexes.  Only the types of the inputs (info, node, slot, item, entry) come from
    EncodeLoop.v. *)
From Coq Require Import String Permutation.
From Verif Require Import PyBase Spec_Container EncodeLoop.
Set Implicit Arguments.
Open Scope list_scope.
Open Scope N_scope.

Section S.
Variable D : Type.
Variable lower : list N -> list N.

(** What an object hands to its parent: its type, name, uuid and data. *)
Notation kid := (list N * entry D)%type.
Definition kids_of (t : list N) (ks : list kid) : list (entry D) := map snd (filter (fun k => str_eqb t (fst k)) ks).

(** One list of included objects before and after the children's data are put in. *)
Inductive filled (ks : list kid) : slot D -> slot D -> Prop :=
| filled_auto : forall t es,                          (* every child of the type, by name *)
    Permutation es (kids_of t ks) -> ascending (map fst es) ->
    filled ks (Auto D t) (Listed (Some t) (map (fun e => Data (snd (snd e))) es))
| filled_listed : forall t ids items,                 (* the data of the child with that uuid *)
    kids_of t ks <> [] ->
    Forall2 (fun i i' => exists u e, i = Id D u /\ i' = Data (snd (snd e)) /\ In e (kids_of t ks) /\ lower (fst (snd e)) = lower u) ids items ->
    filled ks (Listed (Some t) ids) (Listed (Some t) items)
| filled_no_kid : forall t ids, kids_of t ks = [] -> filled ks (Listed (Some t) ids) (Listed (Some t) ids)
| filled_unknown : forall ids, filled ks (Listed None ids) (Listed None ids).

(** Bottom-up assembly of a folder: [assembled n ks files].  Only objects whose class is named like
    their type can have subobjects.  [completes i ks r]: the handler of the object [i], given the
    subobjects [ks], gives the data and files [r]. *)
Section A.
Variables P F : Type.
Variable completes : info P -> list kid -> option D * list F -> Prop.
(** what the object [i] hands on *)
Definition hands_on (i : info P) (d : option D) : list kid := match d with Some d => [(i_type i, (i_name i, (i_uuid i, d)))] | None => [] end.
Inductive assembles : node P -> list kid -> list F -> Prop :=
| as_unmarked : forall i cs, i_marked i = false -> assembles (Node i cs) [] []
| as_leaf : forall i d fs, i_marked i = true -> completes i [] (d, fs) -> assembles (Node i []) (hands_on i d) fs
| as_inner : forall i cs ks fs d own, i_marked i = true -> i_class i = i_type i -> cs <> [] -> assembles_all cs ks fs -> ks <> [] ->
    completes i ks (d, own) -> assembles (Node i cs) (hands_on i d) (fs ++ own)
with assembles_all : list (node P) -> list kid -> list F -> Prop :=
| as_nil : assembles_all [] [] []
| as_cons : forall c cs k f ks fs, assembles c k f -> assembles_all cs ks fs -> assembles_all (c :: cs) (k ++ ks) (f ++ fs).
End A.
(** Handlers that fill lists of included objects: only if there are any *)
Variable finish : info (list (slot D)) -> list (slot D) -> res (option D * list (list N)).
Definition completes_slots (i : info (list (slot D))) (ks : list kid) (r : option D * list (list N)) : Prop :=
  (ks = [] /\ finish i (i_data i) = Ok r) \/ (ks <> [] /\ exists ss, Forall2 (filled ks) (i_data i) ss /\ finish i ss = Ok r).
Definition assembled : node (list (slot D)) -> list kid -> list (list N) -> Prop := assembles completes_slots.
Definition assembled_all : list (node (list (slot D))) -> list kid -> list (list N) -> Prop := assembles_all completes_slots.
End S.

Section W.
Variable P : Type.
Variable lower : list N -> list N.
Notation node := (node P).
(** Source trees: siblings have distinct folders (it is a file system) and the marked siblings of
    one type have distinct names and uuids; names of folders have no slash. *)
Definition tag (n : node) : list N * list N := (i_type (n_info n), i_folder (n_info n)).
Definition siblings (t : list N) (l : list node) : list node := filter (fun n => i_marked (n_info n) && str_eqb t (i_type (n_info n))) l.
Definition distinct_siblings (l : list node) : Prop :=
  NoDup (map tag l) /\
  forall t, NoDup (map (fun n => i_name (n_info n)) (siblings t l)) /\ NoDup (map (fun n => lower (i_uuid (n_info n))) (siblings t l)).
Inductive wf : node -> Prop :=
| wf_node : forall i cs, ~ In 47 (i_type i) -> ~ In 47 (i_folder i) ->
    distinct_siblings cs -> (forall c, In c cs -> wf c) -> wf (Node i cs).
Definition wf_all (l : list node) : Prop := distinct_siblings l /\ forall c, In c l -> wf c.
Fixpoint height (n : node) : nat := let 'Node _ cs := n in S (fold_right (fun c m => Nat.max (height c) m) O cs).
Definition height_all (l : list node) : nat := fold_right (fun c m => Nat.max (height c) m) O l.
End W.
(** A schedule: each round's tasks complete in some order. *)
Definition schedule {T : Type} (sched : nat -> list T -> list T) : Prop := forall n l, Permutation (sched n l) l.
