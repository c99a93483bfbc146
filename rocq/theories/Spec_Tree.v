(** Vocabulary for trees of objects: what is known about each object, apart from the loops. *)
From Coq Require Import String Permutation.
From Verif Require Import PyBase Brace EncodeLoop Include Tree.
Set Implicit Arguments.
Open Scope list_scope.
Open Scope N_scope.

Section S.
Variables P F : Type.
(** An object of a container: its type, identifier and name; whether it stands inside the file of its parent;
    what its source folder holds, what it gives its parent, the files of the container that are its own, and
    its included objects. *)
Inductive object := Object (type uuid name : list N) (inner : bool) (own : P) (data : val) (files : list F) (kids : list object).
Definition o_type (o : object) := let 'Object t _ _ _ _ _ _ _ := o in t.
Definition o_uuid (o : object) := let 'Object _ u _ _ _ _ _ _ := o in u.
Definition o_name (o : object) := let 'Object _ _ n _ _ _ _ _ := o in n.
Definition o_inner (o : object) := let 'Object _ _ _ b _ _ _ _ := o in b.
Definition o_own (o : object) := let 'Object _ _ _ _ x _ _ _ := o in x.
Definition o_data (o : object) := let 'Object _ _ _ _ _ d _ _ := o in d.
Definition o_files (o : object) := let 'Object _ _ _ _ _ _ f _ := o in f.
Definition o_kids (o : object) := let 'Object _ _ _ _ _ _ _ k := o in k.
Definition o_tag (o : object) : tag := (o_type o, o_name o).
Fixpoint o_height (o : object) : nat := let 'Object _ _ _ _ _ _ _ ks := o in S (fold_right (fun k m => Nat.max (o_height k) m) O ks).
Definition o_heights (os : list object) : nat := fold_right (fun k m => Nat.max (o_height k) m) O os.

(** every object folder, and every container file *)
Fixpoint folders (o : object) : sources P :=
  let 'Object t _ n _ own _ _ ks := o in ([(t, n)], own) :: map (fun e : path * P => ((t, n) :: fst e, snd e)) (flat_map folders ks).
Fixpoint all_files (o : object) : list F := let 'Object _ _ _ _ _ _ fs ks := o in flat_map all_files ks ++ fs.

(** what a parent gets from its objects of one type *)
Definition entry_of (o : object) : entry val := (o_name o, (o_uuid o, o_data o)).
Definition entries (t : list N) (os : list object) : list (entry val) := map entry_of (filter (fun o => str_eqb t (o_type o)) os).
(** what an extraction is told about an included object *)
Definition child_of (o : object) : list N * child (list N * P) :=
  (o_type o, if o_inner o then CInner (o_uuid o) (o_name o, o_own o) else CFile _ (o_uuid o)).

Variable lower : list N -> list N.
(** included objects of one type have different names and identifiers *)
Definition distinct (os : list object) : Prop :=
  NoDup (map o_tag os) /\ forall t, NoDup (map (fun o => lower (o_uuid o)) (filter (fun o => str_eqb t (o_type o)) os)).

Variable lists : list N -> bool.
Variable rd : list N -> P -> option (list N * list N).
Variable dec : list N -> list N -> res (list N * P * list (list N * list (child (list N * P)))).
Variable enc : info P -> tindex val -> res (option val * list F).
(** Each class does what it should with each object: reading gives the source folder and names the included
    objects; a build given that folder and the included objects' data, in any order, gives the data and the files. *)
Inductive handled : object -> Prop :=
| handled_object t u n b own d fs ks :
    ~ In 47 t -> ~ In 47 n ->
    (b = false -> exists gs, dec t u = Ok (n, own, gs) /\ flat_map (fun g => map (pair (fst g)) (snd g)) gs = map child_of ks) ->
    (b = true -> ks = []) -> (lists t = false -> ks = []) ->
    rd t own = Some (n, u) ->
    (forall idx, (forall t', Permutation (of_type idx t') (entries t' ks)) -> (idx = [] <-> ks = []) -> enc (info_of rd (t, n) own) idx = Ok (Some d, fs)) ->
    distinct ks -> (forall k, In k ks -> handled k) ->
    handled (Object t u n b own d fs ks).

(** Folders that were read again: the same folders, with contents alike ([alike] of the type of the object) *)
Variable alike : list N -> P -> P -> Prop.
Definition type_at (t0 : list N) (p : path) : list N := fst (last p (t0, [])).
Definition read_back (t0 : list N) (ss ss' : sources P) : Prop :=
  (forall p b, In (p, b) ss' -> exists a, In (p, a) ss /\ alike (type_at t0 p) a b) /\ (forall p a, In (p, a) ss -> exists b, In (p, b) ss').
End S.
