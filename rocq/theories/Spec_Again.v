(** Vocabulary for source folders that are read again: the same files, in any order, modules perhaps without their byte
    order mark, and the file of elements of a form may
    have its data in another order. *)
From Coq Require Import String.
From Verif Require Import PyBase PyText Utf Brace JsonText JsonObj Pipeline ObjCode Payload MetaObj EncodeLoop Types Include Tree Spec_Tree Real Spec_OrgForm Spec_OrgTree Form MetaObj.
Set Implicit Arguments.
Open Scope list_scope.
Open Scope N_scope.

(** the kinds of modules, and the names of their files in the folder of an object of type [t] *)
Definition code_kinds : list (list N) := Eval vm_compute in map u ["obj"; "mgr"; "seance"; "802"; "con"; "app"; "ssn"]%string.
Definition module_of (t n : list N) : Prop := exists c, In c code_kinds /\ n = dotted t (dotted c (u "bsl"%string)).
(** The file [n] is the same in [b] as in [a]; a module may have lost its byte order mark *)
Definition same_file (t n : list N) (a b : folder) : Prop :=
  dget n b = dget n a \/ module_of t n /\ exists c, dget n a = Some (TFile c) /\ dget n b = Some (TFile (bare c)) /\ bare (bare c) = bare c.
(** the same names with the same contents *)
Definition same_files (t : list N) (a b : folder) : Prop := forall n, same_file t n a b.
(** two files with the same document; no key is repeated *)
Definition same_elements (x y : option tree) : Prop :=
  exists ba bb d e, x = Some (TFile ba) /\ y = Some (TFile bb) /\ json_file ba (Jobj d) /\ json_file bb (Jobj e) /\
    NoDup (map fst d) /\ distinct_data (Jobj d) /\ distinct_data (Jobj e) /\ same_document (Jobj d) (Jobj e).
(** the folder of a managed form: its type is the text 1 *)
Definition managed_form (t : list N) (a : folder) : Prop :=
  exists d, json_read a (dotted t (u "json"%string)) = Ok (Jobj d) /\ dget (u "Тип формы"%string) (header_of d) = Some (VStr [49]).

Section S.
Variable auto : bool.                                (* option auto_include *)
(** The source folder [b] of an object of type [t] is [a], read again.  (Of the elements of ordinary forms with auto_include
    nothing is known but that the class reads them.) *)
Definition again (t : list N) (a b : folder) : Prop :=
  same_files t a b \/
  (In t form_types /\ (auto = false \/ managed_form t a) /\ (forall n, n <> dotted t (u "elem.json"%string) -> same_file t n a b) /\
   same_elements (dget (dotted t (u "elem.json"%string)) a) (dget (dotted t (u "elem.json"%string)) b)).
(** The folders [cs] that a build finds where an extraction wrote [ss] *)
Definition reads_again (ss : sources folder) (cs : list (node folder)) : Prop :=
  exists ss', read_back again [] ss ss' /\ reads_all real_lists real_rd ss' cs.
(** a class of which only this is known reads its source files by their names *)
Definition by_name (enc : info folder -> res (option val * list written)) : Prop :=
  forall t n a b r, again t a b -> enc (info_of real_rd (t, n) a) = Ok r -> enc (info_of real_rd (t, n) b) = Ok r.
End S.
