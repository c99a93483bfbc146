(** Model of /repo/src/v8unpack/index.py: the index of file locations. *)
From Coq Require Import String.
From Verif Require Import PyBase PyInt Descent Paths Json.
Set Implicit Arguments.
Open Scope list_scope.
Open Scope Z_scope.

(** posixpath.dirname and basename *)
Definition last_slash (s : list N) : option nat := find_ch slash (rev s).
Definition path_head (s : list N) : list N :=
  match last_slash s with None => [] | Some n => firstn (length s - n) s end.
Definition basename (s : list N) : list N :=
  match last_slash s with None => s | Some n => skipn (length s - n) s end.
Definition dirname (s : list N) : list N :=
  let head := path_head s in
  if forallb (N.eqb slash) head then head else rstrip_by (N.eqb slash) head.

(** d[key] on a JSON value *)
Definition jget (j : json) (key : list N) : res json :=
  match j with
  | JDict d => match dget key d with Some v => Ok v | None => Err KeyError end
  | _ => Err TypeError
  end.
Fixpoint jwalk (j : json) (path : list (list N)) : res json :=
  match path with
  | [] => Ok j
  | d :: rest => v <- jget j d ;; jwalk v rest
  end.

Definition STAR : list N := [42%N].

(** index.py 9-26 get_from_index.  (Line 13 computes the normalized path and line 14 drops it.)
    A TypeError becomes an ExtException, a KeyError is passed on. *)
Definition get_from_index (index : json) (path file_name : list N) : res json :=
  let r :=
    i <- match path with [] => Ok index | _ => jwalk index (split_ch slash path) end ;;
    match jget i file_name with
    | Err KeyError =>
      s <- jget i STAR ;;
      match s with JStr p => Ok (JStr (path_join p file_name)) | _ => Err TypeError end
    | r => r
    end in
  match r with Err TypeError => Err ExtExc | r => r end.

(** index.py 55-85 get_dest_path.  [mk] is the result of helper.makedirs on the folder of the
    answer.  [None] is no descent.  Every exception becomes an ExtException. *)
Definition get_dest_path (mk : list N -> res unit) (dest_dir path file_name : list N) (index : json) (descent : option Z)
    : res (list N * list N) :=
  if jtruthy index then
    match get_from_index index path file_name with
    | Err KeyError => Ok (path, file_name)
    | Err _ => Err ExtExc
    | Ok r =>
      if jtruthy r then
        match r with
        | JStr s =>
          let _path := path_joins dot2 [match descent with None => [] | Some _ => dot2 end; dirname s] in
          match mk (path_join dest_dir _path) with
          | Ok _ | Err FileExistsError => Ok (_path, basename s)
          | Err _ => Err ExtExc
          end
        | _ => Err ExtExc
        end
      else Ok (path, file_name)
    end
  else Ok (path, file_name).

(** ** update_index *)
(** A folder tree: entries in os.listdir order. *)
Inductive node := File | Dir (entries : list (list N * node)).

(** [key in index] for a JSON value: keys of a dictionary, elements of a list, substring of a
    string; otherwise a TypeError *)
Definition jin (key : list N) (index : json) : res bool :=
  match index with
  | JDict d => Ok (match dget key d with Some _ => true | None => false end)
  | JList l => Ok (existsb (fun x => match x with JStr s => str_eqb s key | _ => false end) l)
  | JStr s => Ok (match find_sub key s with Some _ => true | None => false end)
  | _ => Err TypeError
  end.
(** index[key] = v *)
Definition jput (key : list N) (v : json) (index : json) : res json :=
  match index with JDict d => Ok (JDict (dset key v d)) | _ => Err TypeError end.

(** os.path.join(dest_dir, path, entry) if dest_dir else '' *)
Definition location (dest_dir path entry : list N) : list N :=
  match dest_dir with [] => [] | _ => path_joins dest_dir [path; entry] end.

(** index.py 29-43 the recursive function; the dictionary is returned instead of being changed
    in place.  An entry is looked up again under its name without version, as the code does
    with os.path.isdir, so a folder whose name looks versioned counts as a file.
    remove_descent_from_filename returning None makes os.path.join raise a TypeError. *)
Section Update.
  Variable dest_dir : list N.
  Fixpoint update_entries (subs : list (list N * option (json -> list N -> res json))) (path : list N) (names : list (list N))
      (index : json) : res json :=
    match names with
    | [] => Ok index
    | n :: rest =>
      match remove_descent_from_filename n with
      | None => Err TypeError
      | Some entry =>
        let new_path := path_join path entry in
        i <- match dget entry subs with
             | Some (Some upd) =>
               b <- jin entry index ;;
               i <- (if b then Ok index else jput entry (JDict []) index) ;;
               sub <- jget i entry ;;
               sub' <- upd sub new_path ;;
               jput entry sub' i
             | _ =>
               b <- jin entry index ;;
               if b then Ok index else jput entry (JStr (location dest_dir path entry)) index
             end ;;
        update_entries subs path rest i
      end
    end.
  Fixpoint update_node (t : node) (index : json) (path : list N) : res json :=
    match t with
    | File => Err NotADirectoryError
    | Dir es =>
      let subs := map (fun e => (fst e, match snd e with File => None | Dir _ => Some (update_node (snd e)) end)) es in
      update_entries subs path (map fst es) index
    end.
End Update.

(** index.py 29-52 update_index: the index read from its file ([None] when there is none) to the
    index written back. *)
Definition update_index (src : node) (index : option json) (dest_dir : list N) : res json :=
  update_node dest_dir src (match index with Some j => j | None => JDict [] end) [].
