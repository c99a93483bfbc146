(** Specification vocabulary for include areas (C30-C32, C47); independent of the model of the
    code. *)
From Coq Require Import String.
From Verif Require Import PyBase PyText.
Set Implicit Arguments.
Open Scope list_scope.
Open Scope N_scope.

Definition s_area : list N := Eval vm_compute in u "#Область"%string.
Definition s_end : list N := Eval vm_compute in u "#КонецОбласти"%string.
Definition s_include : list N := Eval vm_compute in u "#Область include_"%string.
Definition s_includr : list N := Eval vm_compute in u "#Область includr_"%string.
Definition s_mark : list N := Eval vm_compute in u "//DynamicDirective"%string.
Definition s_sep : list N := Eval vm_compute in u " //"%string.
Definition s_root : list N := Eval vm_compute in u "root"%string.
Definition occurs_in (p s : list N) : Prop := exists a b, s = a ++ p ++ b.

(** ** Lines.  Leading and trailing white space does not matter for what a line is. *)
Definition opens (l : list N) : Prop := starts s_area (strip l) = true.
Definition closes (l : list N) : Prop := starts s_end (strip l) = true.
(** The header of the include area [name]; [writable] is "include_", otherwise "includr_"; with
    [Some d] the header carries the directive [d]. *)
Definition header (l : list N) (writable : bool) (name : list N) (directive : option (list N)) : Prop :=
  name <> [] /\ ~ In 32 name /\
  exists r, strip l = (if writable then s_include else s_includr) ++ r /\
    match directive with
    | None => strip r = name
    | Some d => strip r = name ++ s_sep ++ d /\ d <> [] /\ ~ occurs_in s_sep d
    end.
(** The line carries a dynamic directive: " //DynamicDirective" and an ampersand. *)
Definition marked (l : list N) : Prop := occurs_in (32 :: s_mark) l /\ In 38 l.

(** ** Modules *)
Inductive code :=
| End
| Line (l : list N) (rest : code)
| Region (o : list N) (body : code) (c : list N) (rest : code)   (* an ordinary region *)
| Area (o : list N) (body : code) (c : list N) (rest : code).    (* an include area *)

Fixpoint flatten (m : code) : list (list N) :=
  match m with
  | End => []
  | Line l rest => l :: flatten rest
  | Region o body c rest | Area o body c rest => o :: flatten body ++ c :: flatten rest
  end.
Definition text_of (m : code) : list N := concat (flatten m).

(** Every line ends in a newline and has no other; the last one may lack it. *)
Definition proper_lines (ls : list (list N)) : Prop :=
  forall a x b, ls = a ++ x :: b ->
    (exists y, x = y ++ [10] /\ ~ In 10 y) \/ (b = [] /\ x <> [] /\ ~ In 10 x).

(** What the project's table of include areas says a name stands for. *)
Definition target (table : list (list N * list N)) (name : list N) : list N :=
  match dget name table with Some t => t | None => name end.

(** A plain line under the directive in force [dd]: it carries exactly that directive, or none
    and is no bare marker. *)
Definition plain_line (dd : option (list N)) (l : list N) : Prop :=
  ~ opens l /\ ~ closes l /\
  ((~ marked l /\ (dd = None \/ starts s_mark (strip l) = false)) \/
   (exists d rest, dd = Some d /\ d <> [] /\ l = d ++ [32] ++ s_mark ++ rest /\ In 38 l /\ ~ occurs_in (32 :: s_mark) (s_mark ++ rest))).

(** A well nested module.  [dd] is the directive in force, [here] says that the text lies in the
    folder of the module: a name without underscore means a file of the folder it is used in,
    so in other folders names must have one. *)
Inductive well_nested (table : list (list N * list N)) : option (list N) -> bool -> code -> Prop :=
| wn_end : forall dd here, well_nested table dd here End
| wn_line : forall dd here l rest, plain_line dd l -> well_nested table dd here rest ->
    well_nested table dd here (Line l rest)
| wn_region : forall dd here o body c rest,
    opens o -> starts s_include (strip o) = false -> starts s_includr (strip o) = false -> closes c -> ~ marked o -> ~ marked c ->
    well_nested table dd here body -> well_nested table dd here rest -> well_nested table dd here (Region o body c rest)
| wn_area : forall dd here o body c rest w name d,
    header o w name d -> closes c -> ~ marked o -> ~ marked c -> (here = true \/ In 95 (target table name)) ->
    well_nested table (match d with Some _ => d | None => dd end) (here && negb (mem_ch 95 (target table name))) body ->
    well_nested table dd here rest -> well_nested table dd here (Area o body c rest).

(** [names m ns]: the include areas of [m] in order of appearance. *)
Inductive names : code -> list (list N) -> Prop :=
| nm_end : names End []
| nm_line : forall l rest ns, names rest ns -> names (Line l rest) ns
| nm_region : forall o body c rest ns ns', names body ns -> names rest ns' -> names (Region o body c rest) (ns ++ ns')
| nm_area : forall o body c rest w name d ns ns', header o w name d -> names body ns -> names rest ns' ->
    names (Area o body c rest) (name :: ns ++ ns').

(** ** Files.  A file is known by the folders that lead to it from the root of the file system,
    outermost first, and its name. *)
Definition up_one : list N := [46; 46].
Definition walk (folder : list (list N)) (e : list N) : list (list N) :=
  match e with
  | [] => folder
  | [46] => folder
  | [46; 46] => removelast folder
  | _ => folder ++ [e]
  end.
Definition enter (folder : list (list N)) (p : list N) : list (list N) := fold_left walk (split_ch 47 p) folder.
Definition climb (part : list N) : list N := match part with [] => up_one | _ => part end.
Definition s_bsl : list N := Eval vm_compute in u ".bsl"%string.
(** The file of the include area [name] used by a module in the folder [path] of the sources
    [dest]; [versions] says that sources of several versions are kept together. *)
Definition include_file (table : list (list N * list N)) (versions : bool) (dest : list (list N)) (path name : list N) : list (list N) :=
  let outside := if versions then removelast (removelast dest) else removelast dest in
  match split_ch 95 (target table name) with
  | [n] => (if versions then outside else enter dest path) ++ [n ++ s_bsl]
  | parts => fold_left walk (map climb (removelast parts)) outside ++ [last parts [] ++ s_bsl]
  end.
(** The path of a file as the file system writes it. *)
Definition written (file : list (list N)) : list N := 47 :: join [47] file.

(** ** Splitting *)
(** the line opens an include area *)
Definition opens_include (l : list N) : bool := starts s_include (strip l) || starts s_includr (strip l).
(** the name written on such a line: what follows "#Область include_", up to " //" *)
Definition name_on (l : list N) : list N := hd [] (split_str s_sep (strip (skipn 17 (strip l)))).
Definition include_names (ls : list (list N)) : list (list N) := map name_on (filter opens_include ls).
(** the lines given to [k] by the owners, in order *)
Fixpoint given (k : list N) (owners ls : list (list N)) : list (list N) :=
  match owners, ls with
  | o :: owners', l :: ls' => if str_eqb o k then l :: given k owners' ls' else given k owners' ls'
  | _, _ => []
  end.
Definition opens_b (l : list N) : bool := starts s_area (strip l).
Definition closes_b (l : list N) : bool := starts s_end (strip l).
Definition openings (ls : list (list N)) : nat := length (filter opens_b ls).
Definition closings (ls : list (list N)) : nat := length (filter closes_b ls).

(** In a well nested module: the lines of [m] itself, without the bodies of its include areas,
    and the lines of each include area. *)
Fixpoint own_lines (m : code) : list (list N) :=
  match m with
  | End => []
  | Line l rest => l :: own_lines rest
  | Region o body c rest => o :: own_lines body ++ c :: own_lines rest
  | Area o _ c rest => o :: c :: own_lines rest
  end.
Fixpoint area_lines (m : code) : list (list N * list (list N)) :=
  match m with
  | End => []
  | Line _ rest => area_lines rest
  | Region _ body _ rest => area_lines body ++ area_lines rest
  | Area o body _ rest => (name_on o, own_lines body) :: area_lines body ++ area_lines rest
  end.
