(** Model of the stage between containers and sources: /repo/src/v8unpack/json_container_decoder.py
    38-92 (JsonContainerDecoder.decode), 286-299 (JsonContainerDecoder.encode), 379-415
    (json_decode, _decode) and 418-467 (json_encode, _encode).
    The brace text reader and writer are modelled in Brace.v, JSON texts in JsonText.v. *)
From Coq Require Import String.
From Verif Require Import PyBase PyText Utf Brace Cp1251 JsonText Pipeline.
Open Scope list_scope.
Open Scope N_scope.

Definition dot : N := 46.
Definition ext_json : list N := Eval vm_compute in u ".json"%string.
Definition ext_bin : list N := Eval vm_compute in u ".bin"%string.
Definition ext_c1b64 : list N := Eval vm_compute in u ".c1b64"%string.
Definition ext_txt : list N := Eval vm_compute in u ".txt"%string.
Definition x_txt : list N := Eval vm_compute in u "txt"%string.
Definition x_bin : list N := Eval vm_compute in u "bin"%string.
Definition x_c1b64 : list N := Eval vm_compute in u "c1b64"%string.

(** ** Files and folders below the destination folder; [[]] is the folder itself *)
Inductive entry := EFile (data : list N) | EDir.
Definition path := list (list N).
Definition fsys := path -> option entry.
Definition path_eqb (p q : path) : bool := if list_eq_dec str_eq_dec p q then true else false.
Definition upd (p : path) (e : entry) (fs : fsys) : fsys := fun q => if path_eqb q p then Some e else fs q.
(** helper.clear_dir(dest): whatever was there is gone *)
Definition empty_fs : fsys := fun q => match q with [] => Some EDir | _ => None end.
(** open(p, 'w') and write *)
Definition write_file (p : path) (data : list N) (fs : fsys) : res fsys :=
  match fs p with Some EDir => Err IOError | _ => Ok (upd p (EFile data) fs) end.
(** shutil.copy2(src, p): into the folder if p is one; [name]: basename of src *)
Definition copy_file (name : list N) (p : path) (data : list N) (fs : fsys) : res fsys :=
  match fs p with Some EDir => write_file (p ++ [name]) data fs | _ => Ok (upd p (EFile data) fs) end.

(** ** JsonContainerDecoder.decode: one file *)
Inductive kept := KBytes | KBig | KTree (data : list val) | KEmpty.
(** json_container_decoder.py 45-72, the body of the loop for one code page; [txt] is the decoded
    file.  None: go on with the next code page *)
Definition decode_pass (txt : res (list N)) : res (option kept) :=
  match txt with
  | Err _ => Ok None
  | Ok raw =>
    let t := univ_nl raw in
    match t with
    | c :: _ =>
      if c =? OPEN then
        match jload t with
        | Some _ => Ok None
        | None => match decode_file t with
                  | Ok (DTree d) => Ok (Some (KTree d))
                  | Ok (DText _) => Ok (Some KEmpty)
                  | Err BigBase64 => Ok (Some KBig)
                  | Err _ => Err ExtExc
                  end
        end
      else Ok None
    | [] => Ok None
    end
  end.
Definition decode_kind (bs : list N) : res kept :=
  k <- decode_pass (utf8sig_decode bs) ;;
  match k with
  | Some k => Ok k
  | None => k <- decode_pass (cp1251_decode bs) ;; Ok (match k with Some k => k | None => KBytes end)
  end.

Section Stage.
  (** newline convention of text files *)
  Variable os : platform.
  (** what copying a .txt file as text writes (454-465, reads and writes with the encoding found
      by helper.detect_by_bom): only the name of the result is modelled *)
  Variable recode : list N -> res (list N).

  (** json.dump(data, file, ensure_ascii=False, indent=2) into a file opened as utf-8 *)
  Definition json_file (data : list val) : res (list N) := utf8_encode (write_nl os (jdump 0 (VList data))).

  (** a decode task: destination folder, name, content of the file *)
  Definition dtask : Type := path * list N * list N.
  (** json_container_decoder.py 70-92.  The empty text (KEmpty) would be written as .txt; see
      [no_empty] in JsonStageProofs.v: it never occurs. *)
  Definition decode_task (t : dtask) (fs : fsys) : res fsys :=
    let '(d, name, bs) := t in
    k <- decode_kind bs ;;
    match k with
    | KBytes => copy_file name (d ++ [name ++ ext_bin]) bs fs
    | KBig => copy_file name (d ++ [name ++ ext_c1b64]) bs fs
    | KTree data => j <- json_file data ;; write_file (d ++ [name ++ ext_json]) j fs
    | KEmpty => write_file (d ++ [name ++ ext_txt]) [] fs
    end.
  Fixpoint run_tasks {T} (f : T -> fsys -> res fsys) (ts : list T) (fs : fsys) : res fsys :=
    match ts with [] => Ok fs | t :: r => fs <- f t fs ;; run_tasks f r fs end.

  (** json_container_decoder.py 396-415 _decode: creates the folders and collects the tasks.  The
      listing is sorted in the program; any order of [ents] is considered here.  clear_dir of a
      sub-folder that was just created changes nothing. *)
  Fixpoint decode_walk (d : path) (t : tree) (fs : fsys) : fsys * list dtask :=
    match t with
    | TFile _ => (fs, [])
    | TDir ents =>
      (fix go (ents : list (list N * tree)) (fs : fsys) : fsys * list dtask :=
         match ents with
         | [] => (fs, [])
         | (n, x) :: r =>
           let (fs1, ts1) := match x with
                             | TFile bs => (fs, [(d, n, bs)])
                             | TDir _ => decode_walk (d ++ [n]) x (upd (d ++ [n]) EDir fs)
                             end in
           let (fs2, ts2) := go r fs1 in (fs2, ts1 ++ ts2)
         end) ents fs
    end.
  (** json_container_decoder.py 379-393 json_decode; [sched]: the order in which the tasks of the
      pool are done.  Simplification: tasks are atomic (they write different files, C49). *)
  Definition json_decode (sched : list dtask -> list dtask) (src : list (list N * tree)) : res fsys :=
    let (fs, ts) := decode_walk [] (TDir src) empty_fs in run_tasks decode_task (sched ts) fs.

  (** ** json_encode *)
  Fixpoint last_part (l : list (list N)) : list N := match l with [] => [] | [x] => x | _ :: r => last_part r end.
  (** os.path.splitext(entry)[0]: nothing is cut when only dots precede the last dot *)
  Definition splitext0 (s : list N) : list N :=
    let parts := split_ch dot s in
    let root := join [dot] (removelast parts) in
    if forallb (fun c => c =? dot) root then s else root.
  Fixpoint to_val (j : jval) : res val :=
    match j with
    | Jnull => Ok VNone
    | Jstr s => Ok (VStr s)
    | Jlist l =>
      vs <- (fix go (l : list jval) : res (list val) :=
               match l with [] => Ok [] | x :: r => v <- to_val x ;; vs <- go r ;; Ok (v :: vs) end) l ;;
      Ok (VList vs)
    | _ => Err NotImplementedError
    end.
  (** json_container_decoder.py 286-299 and 374-376: the content of the brace file.  Top-level JSON
      values that are no lists are not modelled (an error here). *)
  Definition encode_bytes (bs : list N) : res (list N) :=
    txt <- utf8_decode bs ;;
    match jload (univ_nl txt) with
    | Some j => v <- to_val j ;;
                match v with
                | VList data => raw <- encode_root_object data ;; utf8sig_encode (write_nl os raw)
                | _ => Err TypeError
                end
    | None => Err ValueError
    end.
  Definition encode_task (t : dtask) (fs : fsys) : res fsys :=
    let '(d, name, bs) := t in
    b <- encode_bytes bs ;; write_file (d ++ [firstn (length name - 5) name]) b fs.
  (** json_container_decoder.py 436-467 _encode *)
  Definition encode_entry (d : path) (name bs : list N) (fs : fsys) : res (fsys * list dtask) :=
    let x := last_part (split_ch dot name) in
    if str_eqb x x_txt then b <- recode bs ;; fs <- write_file (d ++ [firstn (length name - 3) name]) b fs ;; Ok (fs, [])
    else if str_eqb x x_bin || str_eqb x x_c1b64
    then fs <- copy_file name (d ++ [splitext0 name]) bs fs ;; Ok (fs, [])
    else Ok (fs, [(d, name, bs)]).
  Definition mkdir (p : path) (fs : fsys) : res fsys := match fs p with None => Ok (upd p EDir fs) | _ => Err FileExistsError end.
  Fixpoint encode_walk (d : path) (t : tree) (fs : fsys) : res (fsys * list dtask) :=
    match t with
    | TFile _ => Ok (fs, [])
    | TDir ents =>
      (fix go (ents : list (list N * tree)) (fs : fsys) : res (fsys * list dtask) :=
         match ents with
         | [] => Ok (fs, [])
         | (n, x) :: r =>
           ' (fs1, ts1) <- match x with
                           | TFile bs => encode_entry d n bs fs
                           | TDir _ => fs0 <- mkdir (d ++ [n]) fs ;; encode_walk (d ++ [n]) x fs0
                           end ;;
           ' (fs2, ts2) <- go r fs1 ;; Ok (fs2, ts1 ++ ts2)
         end) ents fs
    end.
  (** json_container_decoder.py 418-433 json_encode; every error of a task is wrapped *)
  Definition json_encode (sched : list dtask -> list dtask) (src : list (list N * tree)) : res fsys :=
    ' (fs, ts) <- encode_walk [] (TDir src) empty_fs ;; run_tasks encode_task (sched ts) fs.
End Stage.
