(** The words of the properties about a folder of sources with an index.  Written without the model of the organizer. *)
From Coq Require Import String.
From Verif Require Import PyBase Json Pipeline Spec_Code Spec_OrgTree.
Set Implicit Arguments.
Open Scope list_scope.
Open Scope N_scope.

(** the key of the index under which the table of include areas stands *)
Definition areas_name : list N := Eval vm_compute in u "Области include"%string.
(** the include areas of the index: name -> where it lies *)
Definition index_areas (d : list (list N * json)) (t : list (list N * list N)) : Prop :=
  match dget areas_name d with
  | Some (JDict e) => map (fun x : list N * list N => (fst x, JStr (snd x))) t = e
  | Some _ => False
  | None => t = []
  end.
(** [moved_to d p n loc]: the index says that the file [n] in the folders [p] lies at [loc] *)
Inductive moved_to : list (list N * json) -> list (list N) -> list N -> list N -> Prop :=
| moved_here d n loc : n <> areas_name -> dget n d = Some (JStr loc) -> loc <> [] -> moved_to d [] n loc
| moved_deep d x sub p n loc : x <> areas_name -> dget x d = Some (JDict sub) -> moved_to sub p n loc -> moved_to d (x :: p) n loc.
(** an index of names, folders inside folders: every name once, none with a star in front; an empty place means that the file stays *)
Inductive proper_index : list (list N * json) -> Prop :=
| proper_intro d : NoDup (map fst d) ->
  (forall k v, In (k, v) d -> k <> areas_name -> fit_name k /\ (forall r, k <> 42 :: r) /\ ((exists loc, v = JStr loc) \/ exists sub, v = JDict sub /\ proper_index sub)) -> proper_index d.
(** the place that the index names, seen from the folder of the sources: one folder up, then along the path *)
Definition place_in (D : list (list N)) (loc : list N) : list (list N) := enter (removelast D) loc.
(** where the file [n] in the folders [p] of the sources [D] lies *)
Definition lies (d : list (list N * json)) (D p : list (list N)) (n : list N) (g : list (list N)) : Prop :=
  (exists loc, moved_to d p n loc /\ g = place_in D loc) \/ ((forall loc, ~ moved_to d p n loc) /\ g = D ++ p ++ [n]).
(** the path of a file, relative *)
Definition file_path (loc : list N) : Prop := (forall r, loc <> 47 :: r) /\ fit_name (last (split_ch 47 loc) []).
(** a module or form that the index moves keeps its areas where they were: none of them is a name without underscore, which is
    looked for beside the file, and none lies where the file goes *)
Definition areas_apart (d : list (list N * json)) (t : list (list N * list N)) (D p : list (list N)) (n : list N) (names : list (list N)) (files : list (list (list N))) : Prop :=
  forall loc, moved_to d p n loc -> (forall k, In k names -> In 95 (target t k)) /\ ~ In (place_in D loc) files.
