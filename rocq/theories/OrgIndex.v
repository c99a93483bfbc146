(** Model of the walk of /repo/src/v8unpack/organizer_file.py over a folder of sources with an index (--index): unpack (13-53),
    unpack_file (55-82), unpack_code_file (84-110), pack (130-150), _pack_index (200-242), _pack_index_elem (152-198), _pack
    (253-287), with get_dest_path (index.py 55-85, Index.v), without versions (descent is None).
    Simplified as OrgTree.v; moreover entries of the index that begin with a star, whose folder a build lists by its path
    below the current directory (organizer_file.py 211-226), are not modelled: such an index ends the build here; and of the
    table of include areas only the entries that are strings. *)
From Coq Require Import String.
From Verif Require Import PyBase PyText Paths Json Index Utf JsonText JsonObj Pipeline OrgForm OrgCode OrgTree.
Set Implicit Arguments.
Open Scope list_scope.
Open Scope N_scope.

(** organizer_file.py 142, 210, organizer_code.py: index.get('Области include') *)
Definition k_areas : list N := Eval vm_compute in u "Области include"%string.
Definition table_of (idx : json) : list (list N * list N) :=
  match idx with
  | JDict d => match dget k_areas d with
               | Some (JDict t) => flat_map (fun e => match snd e with JStr s => [(fst e, s)] | _ => [] end) t
               | _ => []
               end
  | _ => []
  end.

Section Org.
Variable os : platform.
Variable idx : json.
Variable fuel : nat.
Let table := table_of idx.

(** ** Extraction *)
(** where a file of the sources goes: get_dest_path, called in organizer_file.py 57, 90 and organizer_form_elem.py 114; folders can be made *)
Definition own_place (dest : list N) (f : entry) : res (list N) :=
  ' (p, n) <- get_dest_path (fun _ => Ok tt) dest (e_path f) (e_name f) idx None ;; Ok (file_key dest p n).
(** organizer_file.py 55-82 unpack_file *)
Definition iplain_write (dest : list N) (f : entry) : res write := k <- own_place dest f ;; Ok (k, e_bytes f).
(** organizer_file.py 84-110 unpack_code_file *)
Fixpoint iarea_writes (own dest : list N) (f : entry) (a : areas) : res (list write) :=
  match a with
  | [] => Ok []
  | (elem, (data, kd)) :: rest =>
    if negb (str_eqb elem k_root) && match kd with Some Includr => true | _ => false end then iarea_writes own dest f rest
    else
      bs <- text_bytes os data ;;
      r <- iarea_writes own dest f rest ;;
      let key := if str_eqb elem k_root then own
                 else let '(p, n) := parse_include_path elem (e_path f) table false in file_key dest p n in
      Ok ((key, bs) :: r)
  end.
Definition icode_writes (dest : list N) (f : entry) : res (list write) :=
  match utf8sig_decode (e_bytes f) with
  | Ok t => match OrgCode.unpack (univ_nl t) with Ok a => own <- own_place dest f ;; iarea_writes own dest f a | Err _ => Err ExtExc end
  | Err _ => Err ExtExc
  end.
(** organizer_form_elem.py 14-21, 109-120 *)
Definition idoc_writes (own dest : list N) (f : entry) : list (list N * jval) -> res (list write) :=
  all_ok (fun nj => bs <- json_bytes os (snd nj) ;;
                    Ok (if str_eqb (fst nj) k_root then own
                        else let '(p, n) := parse_ext table (last9 (e_name f)) (fst nj) (e_path f) in file_key dest p n, bs)).
Definition ielem_writes (dest : list N) (f : entry) : res (list write) :=
  j <- json_of (e_bytes f) ;; docs <- unpack_docs fuel j ;; own <- own_place dest f ;; idoc_writes own dest f docs.
(** organizer_file.py 13-27 unpack *)
Definition iorganize (ordc orde : list write -> list write) (dest : list N) (src : list (list N * tree)) (st : disk) : res disk :=
  let fs := walk_all src in
  pw <- all_ok (iplain_write dest) (filter is_plain fs) ;;
  cw <- all_ok (icode_writes dest) (filter is_code fs) ;;
  ew <- all_ok (ielem_writes dest) (filter is_elems fs) ;;
  Ok (write_all (orde (concat ew)) (write_all (ordc (concat cw)) (write_all pw (clear_dir dest st)))).

(** ** Build *)
(** an entry of the index: the folders, the name, and what the index says *)
Record moved := mkmoved { m_path : list (list N); m_name : list N; m_loc : list N }.
(** organizer_file.py 200-242 _pack_index: the entries in their order *)
Fixpoint index_entries (path : list (list N)) (j : json) : res (list moved) :=
  match j with
  | JDict d =>
    (fix go (l : list (list N * json)) : res (list moved) :=
       match l with
       | [] => Ok []
       | (entry, v) :: rest =>
         if str_eqb entry k_areas then go rest                                       (* 207-208 *)
         else if negb (jtruthy v) then go rest                                       (* 209-210 *)
         else if starts STAR entry then Err ExtExc                                   (* 211-226, see above *)
         else match v with
              | JDict _ => a <- index_entries (path ++ [entry]) v ;; b <- go rest ;; Ok (a ++ b)
              | JStr loc => b <- go rest ;; Ok (mkmoved path entry loc :: b)
              | _ => Err ExtExc
              end
       end) d
  | _ => Err ExtExc
  end.
(** lines 156-161 and 176-180: where the file lies that the index gives *)
Definition source_path (loc : list N) : list N := path_joins dot2 [[]; dirname loc].
(** OrganizerCode.pack, OrganizerFormElem.pack and _pack_file for a file that is read as [name] in [path] and has the kind [kd] *)
Definition build_as (kd : kind) (src : list N) (st : disk) (path name bytes : list N) : res (list N) :=
  match kd with
  | Plain => Ok bytes
  | Code => t <- pack_file fuel (texts st) src path name table None ;; text_bytes os t
  | Elems => j <- json_of bytes ;; d <- pack_docs fuel (read_include table src st (mkentry path name bytes)) j ;; json_bytes os d
  end.
(** lines 152-198 _pack_index_elem: the kind is that of the entry.  A file that is missing ends the build: _pack_file raises
    FileNotFoundError again and line 197 makes it an ExtException *)
Definition built_moved (src dest : list N) (st : disk) (m : moved) : res write :=
  let q := source_path (m_loc m) in
  let n := basename (m_loc m) in
  match dget (file_key src q n) st with
  | None => Err ExtExc
  | Some c => bs <- build_as (kind_of (m_name m)) src st q n c ;; Ok (file_key dest (path_joins [] (m_path m)) (m_name m), bs)
  end.
Definition moved_plain (m : moved) : bool := match kind_of (m_name m) with Plain => true | _ => false end.
(** lines 130-150 pack: the plain files of the index are copied first; in the walk (253-287) a file that is there already is
    left out (268-270); the modules and forms are tasks of the pool *)
Definition iassemble (ordl : list entry -> list entry) (ordw : list write -> list write) (src dest : list N) (st : disk) : res disk :=
  let st := clear_dir dest st in
  ms <- (if jtruthy idx then index_entries [] idx else Ok []) ;;
  pw <- all_ok (built_moved src dest st) (filter moved_plain ms) ;;
  let st := write_all pw st in
  mw <- all_ok (built_moved src dest st) (filter (fun m => negb (moved_plain m)) ms) ;;
  let fs := filter (fun f => match dget (file_key dest (e_path f) (e_name f)) st with Some _ => false | None => true end) (listing src st) in
  ws <- all_ok (fun f => bs <- build_as (kind_of (e_name f)) src st (e_path f) (e_name f) (e_bytes f) ;; Ok (file_key dest (e_path f) (e_name f), bs)) (ordl fs) ;;
  Ok (write_all (ordw (mw ++ ws)) st).
End Org.
