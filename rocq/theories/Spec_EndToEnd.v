(** Vocabulary for the whole way: from the bytes of a file to its sources on the disk, with the include areas in files of their
    own, and back. *)
From Coq Require Import String.
From Verif Require Import PyBase PyText Utf Brace JsonText JsonObj Pipeline ObjCode Payload MetaObj EncodeLoop Types Include Tree Spec_Tree Real Spec_Code Spec_OrgForm Spec_OrgTree Spec_Again Form MetaObj.
Set Implicit Arguments.
Open Scope list_scope.
Open Scope N_scope.

(** the folders on the way to an object: <type>/<name> for each object around it and for itself *)
Definition dirs (q : Tree.path) : list (list N) := flat_map (fun t : tag => [fst t; snd t]) q.
(** The folder [src] that extraction hands over to the organizer: the files of the root on top, those of each object in its folder *)
Definition laid_out (own : folder) (ss : sources folder) (src : list (list N * tree)) : Prop :=
  well_named src /\
  forall p n b, found src p n b <-> (p = [] /\ dget n own = Some (TFile b)) \/ exists q fo, In (q, fo) ss /\ p = dirs q /\ dget n fo = Some (TFile b).
(** A file *.bsl that is not a module has no byte order mark *)
Definition marks_in_modules (t : list N) (fo : folder) : Prop := forall n b, dget n fo = Some (TFile b) -> module_name n -> module_of t n \/ bare b = b.
(** The folders of the objects hold files, at least one; only modules have byte order marks; a file of elements is that of a form
    (with auto_include: of a managed form) *)
Definition plain_folders (auto : bool) (ss : sources folder) : Prop :=
  forall q fo, In (q, fo) ss ->
  (exists n b, dget n fo = Some (TFile b)) /\ (forall n t, dget n fo = Some t -> exists b, t = TFile b) /\ marks_in_modules (type_at [] q) fo /\
  forall n, elements_name n -> dget n fo <> None ->
    In (type_at [] q) form_types /\ n = dotted (type_at [] q) (u "elem.json"%string) /\ (auto = false \/ managed_form (type_at [] q) fo).

(** ** What a build finds on the disk *)
Section S.
Variable D : list (list N).                          (* the folder *)
Variable st : list (list N * list N).                (* path -> content *)
(** the files in the folder [p] below [D] *)
Definition files_in (p : list (list N)) (fo : folder) : Prop :=
  forall n t, dget n fo = Some t <-> fit_name n /\ exists b, t = TFile b /\ dget (written (D ++ p ++ [n])) st = Some b.
(** a folder stands on the disk when there is a file in it, at any depth *)
Definition stands (p : list (list N)) : Prop := exists rest, rest <> [] /\ Forall fit_name (p ++ rest) /\ dget (written (D ++ p ++ rest)) st <> None.
(** the folders of the objects, each with its files *)
Definition object_folders (ss : sources folder) : Prop :=
  (forall q, (exists fo, In (q, fo) ss) <-> q <> [] /\ stands (dirs q)) /\ (forall q fo, In (q, fo) ss -> files_in (dirs q) fo).
End S.
