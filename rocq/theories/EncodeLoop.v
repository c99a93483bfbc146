(** Model of the assembly of nested objects: /repo/src/v8unpack/decoder.py 110-173 (Decoder.encode,
    encode_include), helper.py 226-266 (run_in_pool_encode_include),
    MetaDataObject/__init__.py 116-173 (encode) and MetaObject/__init__.py 131-231
    (fill_header_includes, fill_header_include, encode_includes, encode_get_include_obj).

    What a handler does with its own files (fill_header_includes, encode_object,
    write_encode_object, get_internal_data) is a parameter, [finish]: from the object and the
    entries of its included objects it makes the data for the parent (None if empty, which Python
    treats as false) and the written files, or fails.  At the end, [with_slots] is the handler that
    first fills the lists of included objects and then does the rest. *)
From Coq Require Import String.
From Verif Require Import PyBase Container.
Set Implicit Arguments.
Open Scope list_scope.
Open Scope N_scope.

Section Loop.
Variable D : Type.                                   (* data of an object for its parent *)
Variable P : Type.                                   (* what is in a source folder *)
Variable F : Type.                                   (* a written file *)

(** What a parent gets from a child: (name, (uuid, data)).  helper.py 252 keeps
    (uuid, name, data). *)
Definition entry : Type := list N * (list N * D).
(** include_index[parent_id]: type -> entries in order of completion *)
Definition tindex : Type := list (list N * list entry).
(** include_index *)
Definition pindex : Type := list (list N * tindex).

Definition of_type (idx : tindex) (t : list N) : list entry := match dget t idx with Some l => l | None => [] end.
(** A source folder: <type>/<folder>.  [i_marked]: it has the files <type>.id.json and
    <type>.json.  [i_class]: the name of the class that handles it (differs from the type for
    types with versions, MetaDataObject/__init__.py 34-45). *)
Record info := mkinfo { i_type : list N; i_folder : list N; i_class : list N; i_marked : bool; i_name : list N; i_uuid : list N; i_data : P }.
Inductive node := Node (i : info) (children : list node).
Definition n_info (n : node) : info := let 'Node i _ := n in i.
Definition n_children (n : node) : list node := let 'Node _ c := n in c.
Variable finish : info -> tindex -> res (option D * list F).

(** [type, [src_dir, entry, dest_dir, options, parent_id, parent_container_uuid, include_index]] *)
Record task := mktask { t_node : node; t_parent : list N; t_index : tindex }.
(** f"{parent_id}/{cls.__name__}/{file_name}" *)
Definition obj_id (parent type folder : list N) : list N := parent ++ [47] ++ type ++ [47] ++ folder.

Inductive result :=
| Nothing                                                     (* None, None *)
| Parent (t : task) (children : list task)
| Done (parent type : list N) (e : option entry) (files : list F).

(** MetaDataObject/__init__.py 117-173 encode and 206-217 encode_get_include_obj: the subfolders
    in the order given (sorted by type, then as the file system lists them) *)
Definition run_task (t : task) : res result :=
  let 'Node i children := t_node t in
  if negb (i_marked i) then Ok Nothing
  else
    let done (idx : tindex) :=
      ' (d, files) <- finish i idx ;;
      Ok (Done (t_parent t) (i_type i) (match d with Some d => Some (i_name i, (i_uuid i, d)) | None => None end) files) in
    match t_index t with
    | [] =>
      match children with
      | [] => done []
      | _ => Ok (Parent (mktask (t_node t) (t_parent t) [])
                        (map (fun c => mktask c (obj_id (t_parent t) (i_type i) (i_folder i)) []) children))
      end
    | idx => if str_eqb (i_class i) (i_type i) then done idx else Err ExtExc
    end.

(** helper.py 242-252: include_index[parent][type].append(entry) *)
Definition add_entry (p t : list N) (e : entry) (idx : pindex) : pindex :=
  let d := match dget p idx with Some d => d | None => [] end in
  dset p (dset t (of_type d t ++ [e]) d) idx.

Record round := mkround { r_files : list F; r_index : pindex; r_objs : list task; r_children : list task }.
(** helper.py 226-266 run_in_pool_encode_include for tasks in order of completion *)
Fixpoint collect (ts : list task) (r : round) : res round :=
  match ts with
  | [] => Ok r
  | t :: rest =>
    x <- run_task t ;;
    collect rest
      match x with
      | Nothing => r
      | Parent o cs => mkround (r_files r) (r_index r) (r_objs r ++ [o]) (r_children r ++ cs)
      | Done p ty (Some e) fs => mkround (r_files r ++ fs) (add_entry p ty e (r_index r)) (r_objs r) (r_children r)
      | Done p ty None fs => mkround (r_files r ++ fs) (r_index r) (r_objs r) (r_children r)
      end
  end.

(** helper.update_dict (helper.py 416-449, in general in UpdateDict.v) on dictionaries of
    dictionaries of lists *)
Definition merge_types (base new : tindex) : tindex :=
  fold_left (fun b (e : list N * list entry) => dset (fst e) (of_type b (fst e) ++ snd e) b) new base.
Definition merge_index (base new : pindex) : pindex :=
  fold_left (fun b (e : list N * tindex) =>
    match dget (fst e) b with
    | Some d => dset (fst e) (merge_types d (snd e)) b
    | None => dset (fst e) (snd e) b
    end) new base.

(** decoder.py 143-145: give each object of the level the entries of its children *)
Fixpoint pop_level (os : list task) (idx : pindex) : res (list task * pindex) :=
  match os with
  | [] => Ok ([], idx)
  | o :: rest =>
    let i := n_info (t_node o) in
    let key := obj_id (t_parent o) (i_class i) (i_folder i) in
    match dget key idx with
    | None => Err KeyError
    | Some d => ' (ts, idx') <- pop_level rest (ddel key idx) ;; Ok (mktask (t_node o) (t_parent o) d :: ts, idx')
    end
  end.

Record state := mkstate { s_files : list F; s_index : pindex; s_levels : list (list task); s_tasks : list task }.
(** decoder.py 142-147 *)
Definition settle (s : state) : res state :=
  match s_tasks s, s_levels s with
  | [], l :: rest => ' (ts, idx) <- pop_level l (s_index s) ;; Ok (mkstate (s_files s) idx rest ts)
  | _, _ => Ok s
  end.
(** decoder.py 129-148: the loop.  [sched n ts]: the tasks of round n in order of completion *)
Fixpoint loop (fuel : nat) (n : nat) (sched : nat -> list task -> list task) (s : state) : res state :=
  match s_tasks s, s_levels s with
  | [], [] => Ok s
  | _, _ =>
    match fuel with
    | O => Err Timeout
    | S fuel' =>
      r <- collect (sched n (s_tasks s)) (mkround [] [] [] []) ;;
      s' <- settle (mkstate (s_files s ++ r_files r) (merge_index (s_index s) (r_index r))
                            (match r_objs r with [] => s_levels s | os => os :: s_levels s end) (r_children r)) ;;
      loop fuel' (S n) sched s'
    end
  end.
(** decoder.py 123-151: from the top object's folder to what its encode method gets: the entries
    of its children and the list of files.  The top object fills its own header only with the
    option auto_include (Configuration.py 117-118, ExternalDataProcessor.py 76-77). *)
Definition encode_tree (fuel : nat) (sched : nat -> list task -> list task) (root : list N) (children : list node) : res (option tindex * list F) :=
  s <- loop fuel O sched (mkstate [] [] [] (map (fun c => mktask c root []) children)) ;;
  Ok (dget root (s_index s), s_files s).
End Loop.
Arguments Nothing {D P F}.
Arguments Done {D P F}.
Arguments Parent {D P F}.

(** ** Handlers that fill lists of included objects *)
Section Slots.
Variable D : Type.
Variable lower : list N -> list N.                   (* str.lower *)
Notation entry := (entry D).
Notation tindex := (tindex D).
(** One element include[i+3] of a list of included objects: the name of a type (mode
    auto_include) or [type uuid, count, objects...] where an object is an identifier or data.
    [None]: a type uuid that is not in MetaDataTypes.  The stored count is taken to be the
    number of objects. *)
Inductive item := Id (uuid : list N) | Data (d : D).
Inductive slot := Auto (type : list N) | Listed (type : option (list N)) (items : list item).

(** lines 178-180 and 186: the last entry with that uuid *)
Fixpoint last_with (u : list N) (l : list entry) : option D :=
  match l with
  | [] => None
  | (_, (u', d)) :: rest => match last_with u rest with
                            | Some d' => Some d'
                            | None => if str_eqb (lower u') (lower u) then Some d else None
                            end
  end.
Fixpoint fill_items (l : list entry) (items : list item) : res (list item) :=
  match items with
  | [] => Ok []
  | Data _ :: _ => Err ExtExc
  | Id u :: rest => match last_with u l with
                    | None => Err ExtExc
                    | Some d => r <- fill_items l rest ;; Ok (Data d :: r)
                    end
  end.
(** MetaObject/__init__.py 148-189 fill_header_include; types named in a header are known *)
Definition fill_slot (idx : tindex) (s : slot) : res slot :=
  match s with
  | Auto t => Ok (Listed (Some t) (map (fun e : entry => Data (snd (snd e))) (sort_names (of_type idx t))))
  | Listed None _ => Ok s
  | Listed (Some t) items =>
    match of_type idx t with
    | [] => Ok s
    | l => r <- fill_items l items ;; Ok (Listed (Some t) r)
    end
  end.
(** lines 131-146 fill_header_includes *)
Fixpoint fill_slots (idx : tindex) (ss : list slot) : res (list slot) :=
  match ss with
  | [] => Ok []
  | s :: rest => s' <- fill_slot idx s ;; r <- fill_slots idx rest ;; Ok (s' :: r)
  end.

(** What a handler does after that.  MetaDataObject/__init__.py 149-151: nothing is filled if there are no
    entries *)
Variable finish : info (list slot) -> list slot -> res (option D * list (list N)).
Definition with_slots (i : info (list slot)) (idx : tindex) : res (option D * list (list N)) :=
  match idx with
  | [] => finish i (i_data i)
  | _ => ss <- fill_slots idx (i_data i) ;; finish i ss
  end.
Definition encode_top (fuel : nat) (sched : nat -> list (task D (list slot)) -> list (task D (list slot))) (root : list N) (children : list (node (list slot)))
    : res (option tindex * list (list N)) := encode_tree with_slots fuel sched root children.
Definition top_slots (auto : bool) (idx : option tindex) (ss : list slot) : res (list slot) :=
  match idx with
  | Some (e :: d) => if auto then fill_slots (e :: d) ss else Ok ss
  | _ => Ok ss
  end.
End Slots.
