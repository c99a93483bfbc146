(** Model of the version ("descent") file names: /repo/src/v8unpack/helper.py 331-399 and
    /repo/src/v8unpack/organizer_file_ce.py. *)
From Coq Require Import String.
From Verif Require Import PyBase PyInt.
Set Implicit Arguments.
Open Scope list_scope.
Open Scope Z_scope.

Definition DOT : N := 46.

(** name.insert(-1, x) on a non-empty list *)
Definition insert_before_last {A} (x : A) (l : list A) (dflt : A) : list A :=
  removelast l ++ [x; last l dflt].

(** helper.py 343-348 get_descent_file_name.  [descent] is an int; None is falsy like 0. *)
Definition get_descent_file_name (file_name : list N) (descent : Z) : list N :=
  if descent =? 0 then file_name
  else join [DOT] (insert_before_last (str_of_int descent) (split_ch DOT file_name) []).

(** helper.py 390-399 remove_descent_from_filename.  [None] is the Python None that the
    function returns when int() accepts the part but str() of it differs ('007'). *)
Definition remove_descent_from_filename (file_name : list N) : option (list N) :=
  let name := split_ch DOT file_name in
  if (length name <? 3)%nat then Some file_name
  else
    let d := last (removelast name) [] in
    match int_of_str d with
    | Err _ => Some file_name
    | Ok z => if str_eqb (str_of_int z) d
              then Some (join [DOT] (removelast (removelast name) ++ [last name []]))
              else None
    end.

(** helper.py 364-377: the loop over the directory entries; an entry is a name and whether
    os.path.isfile holds for it.  Returns is_without_descent and the list descents. *)
Fixpoint near_scan (startswith endswith file_name : list N) (size : nat) (entities : list (list N * bool))
    : bool * list Z :=
  match entities with
  | [] => (false, [])
  | (entity, isfile) :: rest =>
    let '(w, ds) := near_scan startswith endswith file_name size rest in
    if starts startswith entity && ends endswith entity then
      if str_eqb entity file_name then (true, ds)
      else
        let e := split_ch DOT entity in
        if negb (length e - 1 =? size)%nat then (w, ds)
        else if isfile then
          match int_of_str (last (removelast e) []) with
          | Ok z => (w, z :: ds)
          | Err _ => (w, ds)
          end
        else (w, ds)
    else (w, ds)
  end.

(** sorted(descents, reverse=True, key=lambda x: 0 if x > descent else x)[0]: the sort is
    stable and reverse keeps the order of equal elements, so this is the first element
    with the greatest key (helper.py 382). *)
Definition near_key (descent x : Z) : Z := if x >? descent then 0 else x.
Fixpoint first_max (key : Z -> Z) (best : Z) (l : list Z) : Z :=
  match l with
  | [] => best
  | x :: rest => first_max key (if key x >? key best then x else best) rest
  end.

(** helper.py 351-387 get_near_descent_file_name.  The directory listing is a parameter (an
    absent directory is created, its listing is empty); only the returned file name is
    modelled, [None] is the pair ('', ''). *)
Definition get_near_descent_file_name (entities : list (list N * bool)) (file_name : list N) (descent : Z)
    : option (list N) :=
  let name := split_ch DOT file_name in
  let startswith := join [DOT] (removelast name) in
  let endswith := last name [] in
  let '(w, descents) := near_scan startswith endswith file_name (length name) entities in
  match descents with
  | [] => if w then Some file_name else None
  | d0 :: rest =>
    let d := first_max (near_key descent) d0 rest in
    if d >? descent then (if w then Some file_name else None)
    else Some (startswith ++ DOT :: str_of_int d ++ DOT :: endswith)
  end.

(** ** Folders *)
(** A folder of files: name -> bytes, in os.listdir order.  Sub-folders of the versioned
    folder are separate folders for this code and are left out. *)
Definition folder := list (list N * list N).
Definition listing (f : folder) : list (list N * bool) := map (fun e => (fst e, true)) f.

(** organizer_file_ce.py 9-26 unpack_get_descent_filename with comparer = equal_binary_file
    (organizer_file.py 106-114).  None is the pair ('', ''): nothing to write. Opening the
    near file can fail when the computed name does not exist. *)
Definition unpack_get_descent_filename (f : folder) (src_data file_name : list N) (descent : Z) : res (option (list N)) :=
  let descent_file_name := get_descent_file_name file_name descent in
  match dget descent_file_name f with
  | Some _ => Ok (Some descent_file_name)
  | None =>
    match get_near_descent_file_name (listing f) file_name descent with
    | None => Ok (Some descent_file_name)
    | Some near =>
      match dget near f with
      | None => Err FileNotFoundError
      | Some near_data => if str_eqb near_data src_data then Ok None else Ok (Some descent_file_name)
      end
    end
  end.

(** organizer_file.py 56-81 unpack_file in version mode, for a destination inside the source
    folder and no index: shutil.copy of the file under the chosen name. *)
Definition unpack_file_ce (f : folder) (file_name src_data : list N) (descent : Z) : res folder :=
  n <- unpack_get_descent_filename f src_data file_name descent ;;
  match n with
  | None => Ok f
  | Some name => Ok (dset name src_data f)
  end.

(** organizer_file_ce.py 28-33 pack_get_descent_filename and the read of the chosen file. *)
Definition pack_get_descent_filename (f : folder) (file_name : list N) (descent : Z) : res (list N) :=
  match get_near_descent_file_name (listing f) file_name descent with
  | None => Err FileNotFoundError
  | Some n => Ok n
  end.
Definition pack_file_ce (f : folder) (file_name : list N) (descent : Z) : res (list N) :=
  n <- pack_get_descent_filename f file_name descent ;;
  match dget n f with Some c => Ok c | None => Err FileNotFoundError end.

(** organizer_file_ce.py 36-64 list_descent_dir on a folder without sub-folders: the
    names with their version removed, without repetition.  A Python None stays None. *)
Fixpoint list_descent_go (seen : list (option (list N))) (f : folder) : list (option (list N)) :=
  match f with
  | [] => []
  | (n, _) :: rest =>
    let e := remove_descent_from_filename n in
    if existsb (fun x => match x, e with
                         | Some a, Some b => str_eqb a b | None, None => true | _, _ => false end) seen
    then list_descent_go seen rest
    else e :: list_descent_go (e :: seen) rest
  end.
Definition list_descent_dir (f : folder) : list (option (list N)) := list_descent_go [] f.

(** organizer_file.py 248-282 _pack in version mode on a flat folder of non-code files, no
    index, empty destination folder: every entry is copied under its name without version.
    Any exception becomes an ExtException. *)
Fixpoint pack_entries (f : folder) (descent : Z) (es : list (option (list N))) (dest : folder) : res folder :=
  match es with
  | [] => Ok dest
  | None :: _ => Err ExtExc
  | Some e :: rest =>
    match pack_file_ce f e descent with
    | Err _ => Err ExtExc
    | Ok c => pack_entries f descent rest (dset e c dest)
    end
  end.
Definition pack_dir (f : folder) (descent : Z) : res folder := pack_entries f descent (list_descent_dir f) [].

(** organizer_file.py 15-30 and 33-53 unpack (inherited by OrganizerFileCE) on a flat source
    folder of non-code files: the destination folder is cleared first (line 21). *)
Fixpoint unpack_entries (descent : Z) (src : list (list N * list N)) (dest : folder) : res folder :=
  match src with
  | [] => Ok dest
  | (n, c) :: rest => d <- unpack_file_ce dest n c descent ;; unpack_entries descent rest d
  end.
Definition organizer_unpack (descent : Z) (src : list (list N * list N)) (dest : folder) : res folder :=
  let cleared : folder := [] in
  unpack_entries descent src cleared.

(** ** helper.py 331-340 check_version *)
Definition check_version (v8_version src_version : list N) : res unit :=
  let v8 := split_ch DOT v8_version in
  let src := split_ch DOT src_version in
  match v8 with
  | [a0; a1; _] =>
    match src with
    | [b0; b1; _] =>
      x0 <- int_of_str a0 ;; x1 <- int_of_str a1 ;;
      y0 <- int_of_str b0 ;; y1 <- int_of_str b1 ;;
      if (x0 =? y0) && (x1 =? y1) then Ok tt else Err AssertionError
    | _ => Err AssertionError
    end
  | _ => Err AssertionError
  end.
