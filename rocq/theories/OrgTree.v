(** Model of the walk of /repo/src/v8unpack/organizer_file.py over a folder of sources: unpack (13-53), unpack_file (55-82),
    unpack_code_file (84-110), pack (130-150), _pack (253-287), _pack_file (289-296), together with
    OrganizerFormElem.unpack and pack (organizer_form_elem.py 14-21, 109-135), without versions (descent is None) and with an
    index that is absent or has only the table of include areas.  What stands inside a module or a form is in OrgCode.v
    and OrgForm.v.
    Simplified: the disk is a list of absolute paths with contents, so making folders and opening a file for writing always
    succeed, empty folders are not seen, and writing one file is one step; the files a build reads do not lie in the folder it
    writes to; an error in any task is an error of the whole. *)
From Coq Require Import String.
From Verif Require Import PyBase PyText Paths Utf JsonText JsonObj Pipeline OrgForm OrgCode.
Set Implicit Arguments.
Open Scope list_scope.
Open Scope N_scope.

Definition x_bsl : list N := Eval vm_compute in u ".bsl"%string.
Definition x_elem : list N := Eval vm_compute in u ".elem.json"%string.
(** absolute path -> content *)
Definition disk := list (list N * list N).
Definition write := (list N * list N)%type.
Definition write_all (ws : list write) (st : disk) : disk := fold_left (fun st w => dset (fst w) (snd w) st) ws st.
(** a file: the folder it lies in, relative to the folder of the walk, its name and its content *)
Record entry := mkentry { e_path : list N; e_name : list N; e_bytes : list N }.
Inductive kind := Code | Elems | Plain.
(** organizer_file.py 40-46 and 272-282 *)
Definition kind_of (name : list N) : kind := if ends x_bsl name then Code else if ends x_elem name then Elems else Plain.
Definition is_code (f : entry) : bool := match kind_of (e_name f) with Code => true | _ => false end.
Definition is_elems (f : entry) : bool := match kind_of (e_name f) with Elems => true | _ => false end.
Definition is_plain (f : entry) : bool := match kind_of (e_name f) with Plain => true | _ => false end.

(** organizer_file.py 29-53 _unpack: the order of the files in the walk *)
Fixpoint walk_entry (path name : list N) (t : tree) : list entry :=
  match t with
  | TFile bs => [mkentry path name bs]
  | TDir ents => (fix go (l : list (list N * tree)) : list entry := match l with [] => [] | (n, t) :: r => walk_entry (path_join path name) n t ++ go r end) ents
  end.
Definition walk_from (path : list N) (ents : list (list N * tree)) : list entry := flat_map (fun e => walk_entry path (fst e) (snd e)) ents.
Definition walk_all (ents : list (list N * tree)) : list entry := walk_from [] ents.

(** the components of a path below a folder; None when the file does not lie below it *)
Fixpoint strip_comps (dir file : list (list N)) : option (list (list N)) :=
  match dir, file with
  | [], [] => None
  | [], _ => Some file
  | d :: dir', f :: file' => if str_eqb d f then strip_comps dir' file' else None
  | _ :: _, [] => None
  end.
Definition below (dir key : list N) : option (list (list N)) := strip_comps (rev (acomps dir)) (split_ch slash (tl key)).
(** helper.py 157-159 clear_dir *)
Definition clear_dir (dir : list N) (st : disk) : disk := filter (fun e => match below dir (fst e) with Some _ => false | None => true end) st.

Section Org.
Variable os : platform.
Variable table : list (list N * list N).   (* index['Области include'] *)
Variable fuel : nat.

(** helper.py 84-100 txt_write and 57-65 json_write: what is written *)
Definition text_bytes (t : list N) : res (list N) := match utf8_encode (write_nl os t) with Ok bs => Ok bs | Err _ => Err ExtExc end.
Definition json_bytes (j : jval) : res (list N) := text_bytes (jprint 0 j).
(** helper.py 46-55 json_read of a file with this content *)
Definition json_of (bs : list N) : res jval :=
  match utf8_decode bs with
  | Ok t => match jload (univ_nl t) with Some j => Ok j | None => Err ExtExc end
  | Err _ => Err ExtExc
  end.
(** a text file read as utf-8 *)
Definition text_of_bytes (bs : list N) : res (list N) := match utf8_decode bs with Ok t => Ok (univ_nl t) | Err _ => Err ExtExc end.

(** organizer_code.py 119-136 parse_include_path with the ending [ext] of the name (OrgCode.parse_include_path has the ending
    of modules); organizer_form_elem.py 115-117, 152-153: the last nine letters of the name of the form *)
Definition parse_ext (ext include_path path : list N) : list N * list N :=
  let '(p, _) := parse_include_path include_path path table false in
  let t := match dget include_path table with Some p => p | None => include_path end in
  (p, last (split_ch UNDERSCORE t) [] ++ [46] ++ ext).
Definition last9 (name : list N) : list N := skipn (length name - 9) name.

Fixpoint all_ok {A B : Type} (f : A -> res B) (l : list A) : res (list B) :=
  match l with [] => Ok [] | x :: r => y <- f x ;; ys <- all_ok f r ;; Ok (y :: ys) end.

(** ** Extraction *)
(** unpack_file 55-82 *)
Definition plain_write (dest : list N) (f : entry) : write := (file_key dest (e_path f) (e_name f), e_bytes f).
(** unpack_code_file 84-110, OrganizerCode.unpack reads the file as utf-8-sig (organizer_code.py 23-24) *)
Fixpoint area_writes (dest : list N) (f : entry) (a : areas) : res (list write) :=
  match a with
  | [] => Ok []
  | (elem, (data, kd)) :: rest =>
    if negb (str_eqb elem k_root) && match kd with Some Includr => true | _ => false end then area_writes dest f rest
    else
      bs <- text_bytes data ;;
      r <- area_writes dest f rest ;;
      let key := if str_eqb elem k_root then file_key dest (e_path f) (e_name f)
                 else let '(p, n) := parse_include_path elem (e_path f) table false in file_key dest p n in
      Ok ((key, bs) :: r)
  end.
Definition code_writes (dest : list N) (f : entry) : res (list write) :=
  match utf8sig_decode (e_bytes f) with
  | Ok t => match OrgCode.unpack (univ_nl t) with Ok a => area_writes dest f a | Err _ => Err ExtExc end
  | Err _ => Err ExtExc
  end.
(** OrganizerFormElem.unpack, organizer_form_elem.py 14-21, 109-120 *)
Definition doc_writes (dest : list N) (f : entry) : list (list N * jval) -> res (list write) :=
  all_ok (fun nj => bs <- json_bytes (snd nj) ;;
                    Ok (if str_eqb (fst nj) k_root then file_key dest (e_path f) (e_name f)
                        else let '(p, n) := parse_ext (last9 (e_name f)) (fst nj) (e_path f) in file_key dest p n, bs)).
Definition elem_writes (dest : list N) (f : entry) : res (list write) :=
  j <- json_of (e_bytes f) ;; docs <- unpack_docs fuel j ;; doc_writes dest f docs.
(** unpack 13-27: plain files are copied during the walk, then the modules, then the forms; [ordc] and [orde] say in what
    order the processes of the pool write their files *)
Definition organize (ordc orde : list write -> list write) (dest : list N) (src : list (list N * tree)) (st : disk) : res disk :=
  let fs := walk_all src in
  let st := write_all (map (plain_write dest) (filter is_plain fs)) (clear_dir dest st) in
  cw <- all_ok (code_writes dest) (filter is_code fs) ;;
  ew <- all_ok (elem_writes dest) (filter is_elems fs) ;;
  Ok (write_all (orde (concat ew)) (write_all (ordc (concat cw)) st)).

(** ** Build *)
(** _pack 253-271: the files of the folder; [below] gives the folders on the way and the name *)
Definition listing (src : list N) (st : disk) : list entry :=
  flat_map (fun e : write => match below src (fst e) with
                             | Some comps => [mkentry (join [slash] (removelast comps)) (last comps []) (snd e)]
                             | None => []
                             end) st.
(** the files that can be read as text *)
Fixpoint texts (st : disk) : store :=
  match st with
  | [] => []
  | (k, bs) :: r => match text_of_bytes bs with Ok t => (k, t) :: texts r | Err _ => texts r end
  end.
(** OrganizerFormElem.pack, organizer_form_elem.py 122-135 and 142-158 *)
Definition read_include (src : list N) (st : disk) (f : entry) (n : list N) : res jval :=
  let '(p, file) := parse_ext (last9 (e_name f)) n (e_path f) in
  match dget (file_key src p file) st with Some bs => json_of bs | None => Err FileNotFoundError end.
(** OrganizerCode.pack, organizer_code.py 69-73; _pack_file 289-296 *)
Definition build_bytes (src : list N) (st : disk) (f : entry) : res (list N) :=
  match kind_of (e_name f) with
  | Plain => Ok (e_bytes f)
  | Code => t <- pack_file fuel (texts st) src (e_path f) (e_name f) table None ;; text_bytes t
  | Elems => j <- json_of (e_bytes f) ;; d <- pack_docs fuel (read_include src st f) j ;; json_bytes d
  end.
Definition built (src dest : list N) (st : disk) (f : entry) : res write :=
  bs <- build_bytes src st f ;; Ok (file_key dest (e_path f) (e_name f), bs).
(** pack 130-150; [ordl]: the order of the listing, [ordw]: the order in which the files are written *)
Definition assemble (ordl : list entry -> list entry) (ordw : list write -> list write) (src dest : list N) (st : disk) : res disk :=
  let st := clear_dir dest st in
  ws <- all_ok (built src dest st) (ordl (listing src st)) ;;
  Ok (write_all (ordw ws) st).
End Org.
