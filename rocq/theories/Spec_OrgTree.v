(** The words of the properties about a whole folder of sources: which files it has, where the files of include areas lie,
    what the content of a text file is.  Written without the model of the organizer. *)
From Coq Require Import String Permutation.
From Verif Require Import PyBase PyText Utf JsonText JsonObj Pipeline Spec_OrgForm Spec_Code.
Set Implicit Arguments.
Open Scope list_scope.
Open Scope N_scope.

Definition s_elem : list N := Eval vm_compute in u ".elem.json"%string.
(** a module; a file with the elements of a form; any other file *)
Definition module_name (n : list N) : Prop := ends s_bsl n = true.
Definition elements_name (n : list N) : Prop := ends s_bsl n = false /\ ends s_elem n = true.
Definition other_name (n : list N) : Prop := ends s_bsl n = false /\ ends s_elem n = false.

(** [found ents p n b]: the folder has the file [n] with the content [b] in the folders [p], outermost first *)
Inductive found : list (list N * tree) -> list (list N) -> list N -> list N -> Prop :=
| here ents n b : In (n, TFile b) ents -> found ents [] n b
| deeper ents d sub p n b : In (d, TDir sub) ents -> found sub p n b -> found ents (d :: p) n b.
(** what a file system allows: every name once, and it is the name of a file *)
Definition fit_name (n : list N) : Prop := n <> [] /\ ~ In 47 n /\ n <> [46] /\ n <> [46; 46].
Inductive well_named : list (list N * tree) -> Prop :=
| well_named_intro ents : NoDup (map fst ents) -> Forall (fun e => fit_name (fst e)) ents -> (forall d sub, In (d, TDir sub) ents -> well_named sub) -> well_named ents.
(** a folder with one file *)
Fixpoint single (p : list (list N)) (n b : list N) : list (list N * tree) :=
  match p with [] => [(n, TFile b)] | d :: p' => [(d, TDir (single p' n b))] end.

(** a file lies in a folder, at any depth *)
Definition within (folder file : list (list N)) : Prop := exists rest, rest <> [] /\ file = folder ++ rest.
(** the file of the include area [name] used in the folder [path] of the sources [dest]; [ending]: of a module or of a form
    (for modules this is [include_file] of Spec_Code without versions) *)
Definition include_with (ending : list N) (table : list (list N * list N)) (dest : list (list N)) (path name : list N) : list (list N) :=
  match split_ch 95 (target table name) with
  | [n] => enter dest path ++ [n ++ ending]
  | parts => fold_left walk (map climb (removelast parts)) (removelast dest) ++ [last parts [] ++ ending]
  end.
(** the content of the file with this text *)
Definition text_file (os : platform) (text bytes : list N) : Prop := utf8_encode (write_nl os text) = Ok bytes.
Definition reorders {A} (f : list A -> list A) : Prop := forall l, Permutation l (f l).
(** the content is the text of this value in JSON *)
Definition json_file (bytes : list N) (j : jval) : Prop := exists t, utf8_decode bytes = Ok t /\ jload (univ_nl t) = Some j.

(** a byte order mark at the start of a file, and the file without it *)
Definition bom : list N := [239; 187; 191].
Definition bare (b : list N) : list N := if starts bom b then skipn 3 b else b.

(** [b] is the text of the module [m], with or without a byte order mark, with the include areas [ns], that is the file [n] in the folders [p] of the sources:
    its areas can be kept in files of their own (the conditions of C30), and it has less than [depth] of them *)
Definition good_module (os : platform) (table : list (list N * list N)) (depth : nat) (dest : list N) (p : list (list N)) (n b : list N) (m : code) (ns : list (list N)) : Prop :=
  text_file os (text_of m) (bare b) /\ Forall scalar (text_of m) /\ ~ In 13 (text_of m) /\ (forall r, text_of m <> 65279 :: r) /\
  well_nested table None true m /\ proper_lines (flatten m) /\ names m ns /\ ~ In s_root ns /\ (forall x, In x ns -> ~ In 47 (target table x)) /\
  NoDup ((enter [] dest ++ p ++ [n]) :: map (include_file table false (enter [] dest) (join [47] p)) ns) /\ (length ns < depth)%nat.
(** [b] is a form with the fields [d], the elements [tree], the data [data] and the areas [places] ([treew]: the elements when all
    areas are writable): its areas can be kept in files of their own (the conditions of C78) *)
Definition good_elements (table : list (list N * list N)) (dest : list N) (p : list (list N)) (n b : list N) (d : Spec_OrgForm.dict) (tree treew : list jval) (data : Spec_OrgForm.dict) (places : list Spec_OrgForm.place) : Prop :=
  json_file b (Jobj d) /\ jgood (Jobj d) /\ NoDup (map fst d) /\ document d tree data /\ areas_at [] tree places /\ writable_tree tree treew /\
  NoDup (map p_name places) /\ ~ In fe_root (map p_name places) /\ NoDup (map fst data) /\ no_nulls data /\
  (forall pl, In pl places -> p_written pl = false -> dget (under (p_path pl) fe_pages) data = None) /\
  (forall pl, In pl places -> ~ In 47 (target table (p_name pl))) /\
  NoDup ((enter [] dest ++ p ++ [n]) :: map (fun pl => include_with s_elem table (enter [] dest) (join [47] p) (p_name pl)) (filter p_written places)).
(** the file [n] comes back: a module without its byte order mark, a form as the same document, with each key of its data once,
    any other file as the same bytes *)
Definition restored (n b b' : list N) : Prop := (other_name n -> b' = b) /\ (module_name n -> b' = bare b /\ bare b' = b') /\ (elements_name n -> exists d doc, json_file b d /\ json_file b' doc /\ same_document d doc /\ distinct_data doc).
