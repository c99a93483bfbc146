(** Model of the four container stages of extract and build:
    /repo/src/v8unpack/container_writer.py 52-114 (calc_sha1, compress_and_build_simple_file,
    compress_and_build), container_doc.py 165-187 (Document.compress), container_reader.py 61-117
    (decompress_and_extract, decompress_file_and_extract) and container.py 64-124
    (Container.extract and extract_file with recursive=True).
    Container.build, container_writer.build and container_reader.extract(..., False, False) are
    modelled in Container.v. *)
From Coq Require Import String.
From Verif Require Import PyBase PyInt Utf PyFile PyText Brace Container.
Open Scope list_scope.
Open Scope Z_scope.

Definition sig32 : list N := [255; 255; 255; 127]%N.
Definition configinfo : list N := Eval vm_compute in u "configinfo"%string.
Definition versions_mark : list N := Eval vm_compute in u "{____versions____}"%string.
Definition ext_temp : list N := Eval vm_compute in u ".temp"%string.
Definition ext_tmp : list N := Eval vm_compute in u ".tmp"%string.

(** What is in a folder after extraction. *)
Inductive tree := TFile (data : list N) | TDir (ents : list (list N * tree)).

(** zlib.decompressobj(-15): a state and decompress(buf), which may raise zlib.error.  Without
    max_length it consumes all of buf, so unconsumed_tail stays empty. *)
Record inflater := mkinflater { i_state : Type; i_init : i_state; i_step : i_state -> list N -> res (list N * i_state) }.

Section Pipe.
  (** the raw deflate stream of a file (container_doc.py:166-176) *)
  Variable deflate : list N -> list N.
  (** b64encode(sha1(data).digest()).decode() *)
  Variable digest : list N -> list N.
  (** newline convention of text files *)
  Variable os : platform.

  (** container_writer.py:100-113: one entry of a container folder *)
  Definition compress_entry (n : node) : res (list N) :=
    match n with
    | NFile _ _ d => Ok (deflate d)
    | NDir es => f <- build deflate fmt32 fempty es true 0 ;; Ok (deflate (fdata f))
    end.
  Fixpoint compress_entries (ents : list (list N * node)) : res (list (list N * list N)) :=
    match ents with
    | [] => Ok []
    | (n, x) :: rest => d <- compress_entry x ;; r <- compress_entries rest ;; Ok ((n, d) :: r)
    end.

  (** str.replace *)
  Definition str_replace (pat rep s : list N) : list N := join rep (split_str pat s).
  (** container_writer.py:72-78: read as text, replace, write from the start without truncating *)
  Definition rewrite_configinfo (versions : list N) (old : list N) : res (list N) :=
    t <- utf8_decode old ;;
    new <- utf8_encode (write_nl os (str_replace versions_mark versions (univ_nl t))) ;;
    Ok (new ++ zdrop (zlen new) old).
  (** container_writer.py:53-69: the versions text.  [dest]: the compressed files, sorted *)
  Definition versions_text (dest : list (list N * list N)) : res (list N) :=
    let others := filter (fun e => negb (str_eqb (fst e) configinfo)) dest in
    let vs := flat_map (fun e => [VStr ([QUOTE] ++ fst e ++ [QUOTE]); VStr (digest (snd e))]) others in
    encode_root_object [VList (VStr (str_of_int (zlen others)) :: vs)].
  (** container_writer.py:52-82 calc_sha1: the compressed files after it *)
  Definition calc_sha1 (src : list (list N * node)) (dest : list (list N * list N)) : res (list (list N * list N)) :=
    match dget configinfo dest with
    | None => Ok dest
    | Some _ =>
      v <- versions_text dest ;;
      match dget configinfo src with
      | Some (NFile _ _ old) => new <- rewrite_configinfo v old ;; Ok (dset configinfo (deflate new) dest)
      | _ => Err IOError
      end
    end.
  (** container_writer.py:85-114 compress_and_build: the folders of compressed files *)
  Definition compress_container (ents : list (list N * node)) : res (list (list N * list N)) :=
    d <- compress_entries (sort_names ents) ;; calc_sha1 ents d.
  Fixpoint compress_and_build (containers : list (list N * list (list N * node))) : res (list (list N * list (list N * list N))) :=
    match containers with
    | [] => Ok []
    | (n, c) :: rest => d <- compress_container c ;; r <- compress_and_build rest ;; Ok ((n, d) :: r)
    end.
  (** v8unpack.py:110-111: compress_and_build, then container_build(..., True).  [stamp]: the
      times of the files written by the first stage. *)
  Definition as_folder (stamp : list N -> Z * Z) (files : list (list N * list N)) : list (list N * node) :=
    map (fun e => (fst e, NFile (fst (stamp (fst e))) (snd (stamp (fst e))) (snd e))) files.
  Definition pack (stamp : list N -> Z * Z) (containers : list (list N * list (list N * node))) : res (list N) :=
    cs <- compress_and_build containers ;;
    f <- writer_build deflate (map (fun c => (fst c, as_folder stamp (snd c))) cs) true ;;
    Ok (fdata f).

  Variable inf : inflater.

  (** src.read(8192) until the file ends *)
  Fixpoint pieces (fuel : nat) (l : list N) : list (list N) :=
    match l, fuel with
    | [], _ => []
    | _, O => [l]
    | _, S k => ztake 8192 l :: pieces k (zdrop 8192 l)
    end.
  (** container_reader.py:85-101: the loop; [flag] is file_is_container *)
  Fixpoint inflate_loop (st : i_state inf) (chunks : list (list N)) (acc : list N) (flag : option bool) : res (list N * bool) :=
    match chunks with
    | [] => Ok (acc, match flag with Some b => b | None => false end)
    | c :: rest =>
      ' (out, st') <- i_step inf st c ;;
      let flag' := match flag with None => Some (str_eqb (ztake 4 out) sig32) | _ => flag end in
      match out with
      | [] => Ok (acc, match flag' with Some b => b | None => false end)
      | _ => inflate_loop st' rest (acc ++ out) flag'
      end
    end.
  Definition inflate_file (data : list N) : res (list N * bool) :=
    inflate_loop (i_init inf) (pieces (length data) data) [] None.

  (** os.rename(a, b) in a folder: overwrites a file (POSIX), fails on a folder *)
  Definition rename_over (a b : list N) (fo : list (list N * tree)) : res (list (list N * tree)) :=
    match dget a fo with
    | None => Err FileNotFoundError
    | Some x => match dget b fo with
                | Some (TDir _) => Err IOError
                | _ => Ok (dset b x (ddel a fo))
                end
    end.
  (** container.py:115-124 and container_reader.py:107-113: a file that is taken for a container.
      [sub]: the result of reading it *)
  Definition to_folder (name ext : list N) (sub : res (list (list N * tree))) (fo : list (list N * tree)) : res (list (list N * tree)) :=
    fo1 <- rename_over name (name ++ ext) fo ;;
    t <- sub ;;
    Ok (ddel (name ++ ext) (dset name (TDir t) fo1)).

  (** container.py:89-91 and 96-124: the loop over the files; [sub]: reading a file that is taken
      for a container *)
  Fixpoint extract_each (sub : list N -> res (list (list N * tree))) (outs : list (list N * list N)) (fo : list (list N * tree)) : res (list (list N * tree)) :=
    match outs with
    | [] => Ok fo
    | (n, d) :: rest =>
      let fo1 := dset n (TFile d) fo in
      fo2 <- (if str_eqb (ztake 4 d) sig32 then to_folder n ext_tmp (sub d) fo1 else Ok fo1) ;;
      extract_each sub rest fo2
    end.
  (** container.py:64-124 extract(dest_dir, recursive=True) of the container in [file];
      [depth] bounds the nesting.  Simplification: the contents of all files are read before the
      first is written. *)
  Fixpoint extract_tree (depth fuel : nat) (file : list N) : res (list (list N * tree)) :=
    '(fs, _) <- read_container fuel fmt32 file 0 ;;
    outs <- extract_files fuel fmt32 0 file fs ;;
    extract_each (match depth with O => fun _ => Err Timeout | S k => extract_tree k fuel end) outs [].

  (** container_reader.py:78-117 decompress_file_and_extract: one task on the destination folder *)
  Definition decompress_task (depth fuel : nat) (t : list N * list N) (fo : list (list N * tree)) : res (list (list N * tree)) :=
    ' (d, flag) <- inflate_file (snd t) ;;
    let fo1 := dset (fst t) (TFile d) fo in
    if flag then to_folder (fst t) ext_temp (extract_tree depth fuel d) fo1 else Ok fo1.
  Fixpoint decompress_tasks (depth fuel : nat) (ts : list (list N * list N)) (fo : list (list N * tree)) : res (list (list N * tree)) :=
    match ts with
    | [] => Ok fo
    | t :: rest => fo' <- decompress_task depth fuel t fo ;; decompress_tasks depth fuel rest fo'
    end.
  (** container_reader.py:61-75 decompress_and_extract.  Tasks of different containers write to
      different folders; [sched] orders the tasks of one container (each task is one step). *)
  Fixpoint decompress_all (depth fuel : nat) (sched : list (list N * list N) -> list (list N * list N)) (cs : list (list (list N * list N))) : res (list (list (list N * tree))) :=
    match cs with
    | [] => Ok []
    | c :: rest => fo <- decompress_tasks depth fuel (sched c) [] ;; r <- decompress_all depth fuel sched rest ;; Ok (fo :: r)
    end.
  (** v8unpack.py:50-51: the folders 0, 1, ... of the second stage *)
  Definition unpack (n fuel depth : nat) (sched : list (list N * list N) -> list (list N * list N)) (file : list N) : res (list (list (list N * tree))) :=
    cs <- extract_all n fuel file ;; decompress_all depth fuel sched cs.
End Pipe.
