(** The words of the properties about a second extraction.  Written without the model of the organizer. *)
From Verif Require Import PyBase JsonText Pipeline Spec_Code OrgForm Spec_OrgTree.
Set Implicit Arguments.
Open Scope list_scope.
Open Scope N_scope.

(** the form [b'] is split into the same files as the form [b] *)
Definition splits_alike (fuel : nat) (b b' : list N) : Prop := forall dd files, json_file b dd -> unpack_docs fuel dd = Ok files -> exists doc, json_file b' doc /\ unpack_docs fuel doc = Ok files.
(** [b'] is what the file [n] with the content [b] comes back as: a module without its byte order mark, a form that is split alike,
    any other file the same *)
Definition back (fuel : nat) (n b b' : list N) : Prop := restored n b b' /\ (elements_name n -> splits_alike fuel b b').
(** the folder [src'] has the files of [src], come back *)
Definition comes_back (fuel : nat) (src src' : list (list N * tree)) : Prop :=
  (forall p n b, found src p n b -> exists b', found src' p n b' /\ back fuel n b b') /\
  (forall p n b', found src' p n b' -> exists b, found src p n b /\ back fuel n b b').
(** [src] is what the folder [D] of the disk holds *)
Definition holds_folder (st : list (list N * list N)) (D : list (list N)) (src : list (list N * tree)) : Prop :=
  well_named src /\ forall p n b, fit_name n -> Forall fit_name p -> found src p n b <-> dget (written (D ++ p ++ [n])) st = Some b.
