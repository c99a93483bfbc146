(** The words of the properties about edited sources of a module (C96).  Written without the model of the code. *)
From Verif Require Import PyBase PyText Spec_Code.
Set Implicit Arguments.
Open Scope list_scope.
Open Scope N_scope.

(** [shows l k]: the line [l] of the module stands as [k] in the sources: a directive before the mark of a dynamic directive is not kept *)
Inductive shows : list N -> list N -> Prop :=
| sh_same l : ~ marked l -> shows l l
| sh_mark d rest : In 38 (d ++ [32] ++ s_mark ++ rest) -> ~ occurs_in (32 :: s_mark) (s_mark ++ rest) -> shows (d ++ [32] ++ s_mark ++ rest) (s_mark ++ rest).
(** [in_files m own areas]: the lines of the module [m] that stay with it, and the lines of every include area under its name *)
Inductive in_files : code -> list (list N) -> list (list N * list (list N)) -> Prop :=
| if_end : in_files End [] []
| if_line l k rest ls fs : shows l k -> in_files rest ls fs -> in_files (Line l rest) (k :: ls) fs
| if_region o body c rest lb fb lr fr : in_files body lb fb -> in_files rest lr fr -> in_files (Region o body c rest) (o :: lb ++ c :: lr) (fb ++ fr)
| if_area o body c rest lb fb lr fr : in_files body lb fb -> in_files rest lr fr -> in_files (Area o body c rest) (o :: c :: lr) ((name_on o, lb) :: fb ++ fr).
(** the sources of [m] are on the disk *)
Definition sources_of (table : list (list N * list N)) (dest path file : list N) (st : list (list N * list N)) (m : code) : Prop :=
  exists own areas, in_files m own areas /\
    dget (written (enter (enter [] dest) path ++ [file])) st = Some (concat own) /\
    forall n ls, In (n, ls) areas -> dget (written (include_file table false (enter [] dest) path n)) st = Some (concat ls).

(** [edited x new m m']: in the module [m], the lines of the areas with the name [x] are replaced by [new], which gives [m'] *)
Inductive edited (x : list N) (new : code) : code -> code -> Prop :=
| ed_end : edited x new End End
| ed_line l rest rest' : edited x new rest rest' -> edited x new (Line l rest) (Line l rest')
| ed_region o body c rest body' rest' : edited x new body body' -> edited x new rest rest' -> edited x new (Region o body c rest) (Region o body' c rest')
| ed_here o body c rest rest' : name_on o = x -> edited x new rest rest' -> edited x new (Area o body c rest) (Area o new c rest')
| ed_inside o body c rest body' rest' : name_on o <> x -> edited x new body body' -> edited x new rest rest' -> edited x new (Area o body c rest) (Area o body' c rest').
