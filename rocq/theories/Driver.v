(** Model of the entry points: /repo/src/v8unpack/v8unpack.py 21-187 (extract, build, the three
    commands over a file of products) and 190-297 (what the command line does once argparse has
    parsed it).  The stages themselves are parameters here: they are modelled elsewhere. *)
From Coq Require Import String.
From Verif Require Import PyBase PyInt Paths Json UpdateDict OrgCode.
Set Implicit Arguments.
Open Scope list_scope.
Open Scope Z_scope.

Definition kd_descent : list N := Eval vm_compute in u "descent"%string.
Definition kd_disable : list N := Eval vm_compute in u "disable"%string.
Definition kd_options : list N := Eval vm_compute in u "options"%string.
Definition kd_product : list N := Eval vm_compute in u "product"%string.
Definition kd_prefix : list N := Eval vm_compute in u "prefix"%string.
Definition kd_auto : list N := Eval vm_compute in u "auto_include"%string.
Definition kd_version : list N := Eval vm_compute in u "version"%string.
Definition kd_src : list N := Eval vm_compute in u "src"%string.
Definition kd_bin : list N := Eval vm_compute in u "bin"%string.
Definition kd_temp : list N := Eval vm_compute in u "temp"%string.
Definition kd_index : list N := Eval vm_compute in u "index"%string.
Definition d_stage0 : list N := Eval vm_compute in u "decode_stage_0"%string.
Definition d_stage1 : list N := Eval vm_compute in u "decode_stage_1"%string.
Definition d_stage3 : list N := Eval vm_compute in u "decode_stage_3"%string.
Definition e_stage0 : list N := Eval vm_compute in u "encode_stage_0"%string.
Definition e_stage1 : list N := Eval vm_compute in u "encode_stage_1"%string.
Definition e_stage3 : list N := Eval vm_compute in u "encode_stage_3"%string.

Definition path := list N.

(** The disk: the content of every file, by the components of its absolute path, outermost
    first.  Folders without files are not represented, and there are no symbolic links. *)
Definition disk := list (list N) -> option (list N).
Fixpoint inside (d f : list (list N)) : bool :=
  match d, f with
  | [], _ :: _ => true
  | [], [] => false
  | x :: d, y :: f => str_eqb x y && inside d f
  | _ :: _, [] => false
  end.
(** what a path means, [cwd] being the current folder *)
Definition locate (cwd p : path) : list (list N) := rev (acomps (path_join cwd p)).

(** What a command does to the disk, and how it ends. *)
Definition act := disk -> disk * res unit.
Definition ret : act := fun w => (w, Ok tt).
Definition fail (e : exn) : act := fun w => (w, Err e).
Definition seq (a b : act) : act := fun w => match a w with (w', Ok _) => b w' | (w', Err e) => (w', Err e) end.
(** except Exception as err: raise ExtException(parent=err) *)
Definition wrapped (a : act) : act := fun w => match a w with (w', Ok _) => (w', Ok tt) | (w', Err _) => (w', Err ExtExc) end.

(** shutil.rmtree(path, ignore_errors=True): everything in the folder goes.  (Simplified: no file
    in it is locked or protected.) *)
Definition rmtree (cwd p : path) : act := fun w => (fun f => if inside (locate cwd p) f then None else w f, Ok tt).
(** helper.py 157-159 clear_dir: makedirs fails if the path is a file.  (Simplified: no folder
    above it is a file.)  os.path.normpath of the callers is part of [locate]: '' is the current
    folder, as normpath makes '.' of it. *)
Definition clear_dir (cwd p : path) : act :=
  seq (rmtree cwd p) (fun w => match w (locate cwd p) with Some _ => (w, Err FileExistsError) | None => (w, Ok tt) end).

(** helper.py 178-183 get_pool: multiprocessing.Pool refuses fewer than one process *)
Definition get_pool (processes : option Z) : act :=
  fun w => match processes with
           | Some n => if n <? 1 then (w, Err ValueError) else (w, Ok tt)
           | None => (w, Ok tt)
           end.

(** options.get('descent') if options else None *)
Definition descent_of (options : json) : res json :=
  match options with
  | JDict d => Ok (match dget kd_descent d with Some v => v | None => JNull end)
  | o => if jtruthy o then Err AttributeError else Ok JNull
  end.

(** One call of extract or build: v8unpack.py 21 and 69 (the file, the folder, temp_dir, index,
    options).  index None and index '' are both [[]]: check_index treats them alike. *)
(** v8unpack.py 24-25, 73-74 *)
Definition some_options (options : json) : json := match options with JNull => JDict [] | o => o end.
Record call := mkcall { a_bin : path; a_src : path; a_temp : option path; a_index : path; a_options : json }.

Section Stages.
  Variable cwd : path.
  (** the JSON files that can be loaded, by name *)
  Variable load : disk -> path -> option jdict.
  (** tempfile.mkdtemp() *)
  Variable mkdtemp : disk -> path.
  (** container_extract(file, dir), decompress_and_extract(dir, dir), decode(dir, dir, options),
      OrganizerFile.unpack / OrganizerFileCE.unpack(dir, dir, index, descent) *)
  Variable container_extract : path -> path -> act.
  Variable decompress : path -> path -> act.
  Variable decode : path -> path -> json -> act.
  Variable unpack : path -> path -> option jdict -> json -> act.
  (** OrganizerFile.pack / OrganizerFileCE.pack(dir, dir, index, descent), encode(dir, dir,
      file_name, options), compress_and_build(dir, dir), container_build(dir, file) *)
  Variable pack : path -> path -> option jdict -> json -> act.
  Variable encode : path -> path -> path -> json -> act.
  Variable compress : path -> path -> act.
  Variable container_build : path -> path -> act.
  Variable base_name : path -> path.
  (** update_index(src, index, dest) *)
  Variable update_index : json -> json -> json -> act.

  (** v8unpack.py 37-41, 82-86: the temporary folder and whether it is removed at the end *)
  Definition temp_of (t : option path) (w : disk) : path * bool :=
    match t with None => (mkdtemp w, true) | Some t => (t, false) end.
  Definition drop_temp (t : path * bool) : act := if snd t then rmtree cwd (fst t) else ret.

  (** v8unpack.py 21-66 extract *)
  Definition extract (c : call) (processes : option Z) : act :=
    wrapped (fun w =>
      match check_index (load w) (a_index c) with
      | Err e => (w, Err e)
      | Ok (Some []) => (w, Ok tt)                                   (* 29-30 *)
      | Ok index =>
        match descent_of (some_options (a_options c)) with
        | Err e => (w, Err e)
        | Ok descent =>
          seq (match descent with JNull => clear_dir cwd (a_src c) | _ => ret end)   (* 36-37 *)
          (fun w =>
             let t := temp_of (a_temp c) w in
             let stage s := path_join (fst t) s in
             seq (clear_dir cwd (fst t))
             (seq (get_pool processes)
             (seq (container_extract (a_bin c) (stage d_stage0))
             (seq (decompress (stage d_stage0) (stage d_stage1))
             (seq (decode (stage d_stage1) (stage d_stage3) (some_options (a_options c)))
             (seq (unpack (stage d_stage3) (a_src c) index descent)
                  (drop_temp t)))))) w) w
        end
      end).

  (** v8unpack.py 69-118 build *)
  Definition build (c : call) (processes : option Z) : act :=
    wrapped (fun w =>
      match check_index (load w) (a_index c) with
      | Err e => (w, Err e)
      | Ok (Some []) => (w, Ok tt)                                   (* 79-80 *)
      | Ok index =>
        let t := temp_of (a_temp c) w in
        let stage s := path_join (fst t) s in
        seq (clear_dir cwd (fst t))
        (seq (get_pool processes)
        (fun w => match descent_of (some_options (a_options c)) with
         | Err e => (w, Err e)
         | Ok descent =>
           seq (pack (a_src c) (stage e_stage3) index descent)
           (seq (encode (stage e_stage3) (stage e_stage1) (base_name (a_bin c)) (some_options (a_options c)))
           (seq (compress (stage e_stage1) (stage e_stage0))
           (seq (container_build (stage e_stage0) (a_bin c))
                (drop_temp t)))) w
         end)) w
      end).

  (** ** The file of products *)

  (** a name in a product: a string, or absent (None).  (Simplified: any other value is refused
      at once; in the code it is refused by the first function that needs a string.) *)
  Definition path_field (j : json) : res path := match j with JStr s => Ok s | _ => Err TypeError end.
  Definition opt_field (j : json) : res (option path) :=
    match j with JNull => Ok None | JStr s => Ok (Some s) | _ => Err TypeError end.
  Definition or_empty (o : option path) : path := match o with Some p => p | None => [] end.

  (** params.get(key) *)
  Definition jfield (p : json) (k : list N) : res json :=
    match p with JDict d => Ok (match dget k d with Some v => v | None => JNull end) | _ => Err AttributeError end.
  (** params[key] *)
  Definition jitem (p : json) (k : list N) : res json :=
    match p with JDict d => match dget k d with Some v => Ok v | None => Err KeyError end | _ => Err TypeError end.

  (** v8unpack.py 124-126, 147-149, 168-170: one product asked for by its code is done even if it
      is disabled *)
  Definition select (products : jdict) (code : list N) : res jdict :=
    match code with
    | [] => Ok products
    | _ => match dget code products with
           | None => Err KeyError
           | Some (JDict d) => Ok [(code, JDict (dset kd_disable (JBool false) d))]
           | Some _ => Err TypeError
           end
    end.

  (** v8unpack.py 127-137: one product of build_all.  None: it is disabled *)
  Definition build_call (product : list N) (params : json) : res (option call) :=
    dis <- jfield params kd_disable ;;
    if jtruthy dis then Ok None else
    options <- match params with
               | JDict d => Ok (match dget kd_options d with Some v => v | None => JDict [] end)
               | _ => Err AttributeError
               end ;;
    options <- match options with
               | JDict d => Ok (JDict (dset kd_product (JStr product) d))
               | _ => Err TypeError
               end ;;
    src <- jitem params kd_src ;; bin <- jitem params kd_bin ;;
    temp <- jfield params kd_temp ;; index <- jfield params kd_index ;;
    src <- path_field src ;; bin <- path_field bin ;; temp <- opt_field temp ;; index <- opt_field index ;;
    Ok (Some (mkcall bin src temp (or_empty index) options)).

  (** v8unpack.py 150-158: one product of extract_all *)
  Definition extract_call (params : json) : res (option call) :=
    dis <- jfield params kd_disable ;;
    if jtruthy dis then Ok None else
    bin <- jitem params kd_bin ;; src <- jitem params kd_src ;;
    temp <- jfield params kd_temp ;; index <- jfield params kd_index ;; options <- jfield params kd_options ;;
    bin <- path_field bin ;; src <- path_field src ;; temp <- opt_field temp ;; index <- opt_field index ;;
    Ok (Some (mkcall bin src temp (or_empty index) options)).

  (** v8unpack.py 171-179: one product of update_index_all *)
  Definition index_call (dest : json) (params : json) : res (option (json * json * json)) :=
    dis <- jfield params kd_disable ;;
    if jtruthy dis then Ok None else
    src <- jitem params kd_src ;; index <- jfield params kd_index ;;
    Ok (Some (src, index, dest)).

  Fixpoint each (one : list N -> json -> act) (products : jdict) : act :=
    match products with
    | [] => ret
    | (name, params) :: rest => seq (one name params) (each one rest)
    end.
  Definition over (one : list N -> json -> act) (products : option jdict) (code : list N) : act :=
    wrapped (match products with
             | None => fail GenericException
             | Some ps => match select ps code with Err e => fail e | Ok ps => each one ps end
             end).
  Definition run_call {A} (r : res (option A)) (go : A -> act) : act :=
    match r with Err e => fail e | Ok None => ret | Ok (Some c) => go c end.

  (** v8unpack.py 121-142 build_all, 144-163 extract_all, 165-184 update_index_all.  An empty or
      absent product code is [[]]. *)
  Definition build_all (file code : path) (processes : option Z) : act :=
    fun w => over (fun name params => run_call (build_call name params) (fun c => build c processes)) (load w file) code w.
  Definition extract_all (file code : path) (processes : option Z) : act :=
    fun w => over (fun _ params => run_call (extract_call params) (fun c => extract c processes)) (load w file) code w.
  Definition update_index_all (file code : path) (dest : json) : act :=
    fun w => over (fun _ params => run_call (index_call dest params) (fun '(s, i, d) => update_index s i d)) (load w file) code w.

  (** ** The command line *)

  (** v8unpack.py 190-252: what parse_args returns; exactly one of the modes is given *)
  Inductive mode := ModeE (file src : path) | ModeB (src file : path) | ModeI (src : path)
                  | ModeEA (file : path) | ModeBA (file : path) | ModeIA (file : path).
  Record args := mkargs {
    g_mode : mode; g_temp : option path; g_prefix : option path; g_core : option path; g_index : option path;
    g_version : option path; g_processes : option Z; g_descent : option Z; g_auto_include : bool }.

  Definition jopt (o : option path) : json := match o with Some s => JStr s | None => JNull end.
  (** v8unpack.py 260-265 *)
  Definition cli_options (g : args) : jdict :=
    fold_left (fun d kv => if jtruthy (snd kv) then dset (fst kv) (snd kv) d else d)
      [(kd_prefix, jopt (g_prefix g)); (kd_auto, JBool (g_auto_include g));
       (kd_descent, match g_descent g with Some z => JNum z | None => JNull end); (kd_version, jopt (g_version g))] [].

  (** os.path.abspath *)
  Definition absolute (p : path) : path := abspath (path_join cwd p).

  (** v8unpack.py 267-294: the exit code is 0, or 1 after an error *)
  Definition main (g : args) : disk -> disk * Z := fun w =>
    let a := match g_mode g with
             | ModeE file src => extract (mkcall (absolute file) (absolute src) (g_temp g) (or_empty (g_index g)) (JDict (cli_options g))) None
             | ModeB src file => build (mkcall (absolute file) (absolute src) (g_temp g) (or_empty (g_index g)) (JDict (cli_options g))) None
             | ModeBA file => build_all file (or_empty (g_index g)) None
             | ModeEA file => extract_all file (or_empty (g_index g)) None
             | ModeI src => update_index (JStr src) (jopt (g_index g)) (jopt (g_core g))
             | ModeIA file => update_index_all file (or_empty (g_index g)) (jopt (g_core g))
             end in
    match a w with (w', Ok _) => (w', 0) | (w', Err _) => (w', 1) end.
End Stages.
