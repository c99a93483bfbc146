(** Specification vocabulary for versioned file names (C23-C26, C42, C43); independent of
    the model of the code. *)
From Verif Require Import PyBase PyInt.
Set Implicit Arguments.
Open Scope list_scope.
Open Scope Z_scope.

(** The file name <stem>.<ext>, and the same name carrying version [d]. *)
Record fname := mkname { stem : list N; ext : list N }.
Definition plain_of (n : fname) : list N := stem n ++ 46%N :: ext n.
Definition versioned (n : fname) (d : Z) : list N := stem n ++ 46%N :: str_of_int d ++ 46%N :: ext n.

(** [ext] is what follows the last dot. *)
Definition good_ext (n : fname) : Prop := ~ In 46%N (ext n).

Definition dots (s : list N) : nat := count_occ N.eq_dec s 46%N.
Definition not_a_number (s : list N) : Prop := forall z, int_of_str s <> Ok z.

(** What is stored for [n]: a file per version. [ents] lists names with "is a regular file". *)
Definition stored (ents : list (list N * bool)) (n : fname) (d : Z) : Prop := In (versioned n d, true) ents.

(** The folder holds no file that could be mistaken for a version of [n]: every file whose
    name begins with the stem, ends with the extension and has one dot more than [n] is a
    version of [n] with a positive number, or has something else than a number in the
    version position. *)
Definition unambiguous (ents : list (list N * bool)) (n : fname) : Prop :=
  forall e, In (e, true) ents -> e <> plain_of n -> starts (stem n) e = true -> ends (ext n) e = true ->
    dots e = S (dots (plain_of n)) ->
    (exists d, 0 < d /\ e = versioned n d) \/
    (exists a v b, e = a ++ 46%N :: v ++ 46%N :: b /\ ~ In 46%N v /\ ~ In 46%N b /\ not_a_number v).

(** The right answer for version [v]. *)
Definition nearest (ents : list (list N * bool)) (n : fname) (v : Z) (answer : option (list N)) : Prop :=
  (exists d, stored ents n d /\ 0 < d <= v /\ (forall d', stored ents n d' -> d' <= v -> d' <= d)
             /\ answer = Some (versioned n d))
  \/ ((forall d, stored ents n d -> v < d) /\
      ((exists b, In (plain_of n, b) ents) /\ answer = Some (plain_of n)
       \/ (forall b, ~ In (plain_of n, b) ents) /\ answer = None)).

(** A set of file names that can live in one versioned folder: none carries a version
    itself, and no name extends another one at both ends with the same number of dots
    (like test.bsl and test2.bsl). *)
Definition name_ok (n : fname) : Prop :=
  good_ext n /\ (forall a v, stem n = a ++ 46%N :: v -> ~ In 46%N v -> not_a_number v).
Definition compatible (ns : list fname) : Prop :=
  Forall name_ok ns /\
  forall a b, In a ns -> In b ns -> a <> b -> dots (stem a) = dots (stem b) ->
    ~ (starts (stem a) (stem b) = true /\ ends (ext a) (ext b) = true).

(** A folder (name -> bytes) holding only the files [ns], each plain and/or with positive
    versions, every name once. *)
Definition holds_only (ns : list fname) (f : list (list N * list N)) : Prop :=
  NoDup (map fst f) /\
  forall e, In e (map fst f) -> exists n, In n ns /\ (e = plain_of n \/ exists d, 0 < d /\ e = versioned n d).
(** Version [d] of [n] is in the folder; [n] is in the folder without version. *)
Definition has_version (f : list (list N * list N)) (n : fname) (d : Z) : Prop := In (versioned n d) (map fst f).
Definition has_plain (f : list (list N * list N)) (n : fname) : Prop := In (plain_of n) (map fst f).
(** Something usable for version [v] is stored / anything at all is stored. *)
Definition available (f : list (list N * list N)) (n : fname) (v : Z) : Prop :=
  has_plain f n \/ exists d, d <= v /\ has_version f n d.
Definition present (f : list (list N * list N)) (n : fname) : Prop :=
  has_plain f n \/ exists d, has_version f n d.
