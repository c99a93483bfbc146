(** Model of /repo/src/v8unpack/organizer_code.py and of unpack_code_file
    (/repo/src/v8unpack/organizer_file.py 84-110): include areas of modules. *)
From Coq Require Import String.
From Verif Require Import PyBase PyText Paths.
Set Implicit Arguments.
Open Scope list_scope.
Open Scope N_scope.

Definition a_area : list N := Eval vm_compute in u "#Область"%string.
Definition a_include : list N := Eval vm_compute in u "#Область include_"%string.
Definition a_includr : list N := Eval vm_compute in u "#Область includr_"%string.
Definition a_end : list N := Eval vm_compute in u "#КонецОбласти"%string.
Definition a_dyn : list N := Eval vm_compute in u " //DynamicDirective"%string.
Definition a_dyn1 : list N := Eval vm_compute in u "//DynamicDirective"%string.
Definition a_sep : list N := Eval vm_compute in u " //"%string.
Definition a_bsl : list N := Eval vm_compute in u ".bsl"%string.
Definition k_root : list N := Eval vm_compute in u "root"%string.
Definition HASH : N := 35.
Definition AMP : N := 38.
Definition UNDERSCORE : N := 95.

Inductive area_kind := Include | Includr.

(** lines 12-18 is_area *)
Definition is_area (name : list N) : option area_kind :=
  let area_type := firstn 17 name in
  if str_eqb area_type a_include then Some Include
  else if str_eqb area_type a_includr then Some Includr
  else None.

(** _line[17:].strip().split(' //') (lines 40 and 98) *)
Definition area_name_parts (line : list N) : list (list N) := split_str a_sep (strip (skipn 17 line)).

(** str.rfind *)
Fixpoint rfind_sub (p s : list N) : option nat :=
  match s with
  | [] => if starts p s then Some O else None
  | _ :: s' => match rfind_sub p s' with
               | Some n => Some (S n)
               | None => if starts p s then Some O else None
               end
  end.

(** lines 32-35: the text of a line before a dynamic directive is dropped *)
Definition drop_directive (line : list N) : list N :=
  match rfind_sub a_dyn line with
  | Some i => if mem_ch AMP line then skipn (S i) line else line
  | None => line
  end.

(** The state of the loop of lines 27-63.  Stacks are kept innermost first. *)
Definition areas := list (list N * (list N * option area_kind)).
Record ust := mkust { u_areas : areas; u_path : list (list N); u_inc : list (list N) }.

(** self.code_areas[key]['data'] += line *)
Definition append_area (key line : list N) (a : areas) : res areas :=
  match dget key a with
  | Some (d, t) => Ok (dset key (d ++ line, t) a)
  | None => Err KeyError
  end.
Definition append_cur (line : list N) (s : ust) : res ust :=
  match u_inc s with
  | [] => Err IndexError
  | k :: _ => a <- append_area k line (u_areas s) ;; Ok (mkust a (u_path s) (u_inc s))
  end.

(** one iteration, lines 30-60 *)
Definition unpack_line (line0 : list N) (s : ust) : res ust :=
  let _line := strip line0 in
  let line := drop_directive line0 in
  match _line with
  | c :: _ =>
    if c =? HASH then
      if starts a_area _line then
        match is_area _line with
        | Some area_type =>
          let key := hd [] (area_name_parts _line) in
          s <- append_cur line s ;;
          Ok (mkust (dset key ([], Some area_type) (u_areas s)) (key :: u_path s) (key :: u_inc s))
        | None =>
          s <- append_cur line s ;;
          Ok (mkust (u_areas s) ([] :: u_path s) (u_inc s))
        end
      else if starts a_end _line then
        match u_path s with
        | [] => Err IndexError
        | top :: rest =>
          inc <- match top with
                 | [] => Ok (u_inc s)
                 | _ => match u_inc s with [] => Err IndexError | _ :: r => Ok r end
                 end ;;
          append_cur line (mkust (u_areas s) rest inc)
        end
      else append_cur line s
    else append_cur line s
  | [] => append_cur line s
  end.
Fixpoint unpack_lines (ls : list (list N)) (s : ust) : res ust :=
  match ls with
  | [] => Ok s
  | l :: rest => match unpack_line l s with
                 | Ok s' => unpack_lines rest s'
                 | Err _ => Err ExtExc
                 end
  end.
(** lines 21-66 unpack: [text] is the content of the module as read in text mode *)
Definition unpack (text : list N) : res areas :=
  s <- unpack_lines (lines text) (mkust [(k_root, ([], None))] [[]] [k_root]) ;; Ok (u_areas s).

(** lines 119-136 parse_include_path.  [index] is the dictionary of the key 'Области include' *)
Definition parse_include_path (include_path path : list N) (index : list (list N * list N)) (descent : bool)
    : list N * list N :=
  let include_path := match dget include_path index with Some p => p | None => include_path end in
  let tmp := split_ch UNDERSCORE include_path in
  let file_name := last tmp [] ++ a_bsl in
  let _path := if descent then path_join dot2 dot2 else dot2 in
  let _path := if (1 <? length tmp)%nat
               then path_joins _path (map (fun e => match e with [] => dot2 | _ => e end) (removelast tmp))
               else _path in
  (if str_eqb _path dot2 then path else _path, file_name).

(** ** Files *)
(** os.path.abspath of an absolute path: components, outermost first *)
Definition astep (st : list (list N)) (c : list N) : list (list N) :=
  match c with
  | [] => st
  | _ => if str_eqb c dot1 then st else if str_eqb c dot2 then tl st else c :: st
  end.
Definition acomps (p : list N) : list (list N) := fold_left astep (split_ch slash p) [].
Definition abspath (p : list N) : list N := slash :: join [slash] (rev (acomps p)).
(** where the file [name] in the folder <dir>/<path> lies *)
Definition file_key (dir path name : list N) : list N := path_join (abspath (path_join dir path)) name.
(** files: absolute path -> text *)
Definition store := list (list N * list N).

(** organizer_file.py 84-110 unpack_code_file without version mode (unpack_get_descent_filename
    returns its arguments, organizer_file.py 125-128) and for a module that the index does not
    relocate.  helper.txt_write is taken to succeed. *)
Fixpoint write_areas (dest_dir path file_name : list N) (index : list (list N * list N)) (a : areas) (st : store) : store :=
  match a with
  | [] => st
  | (elem, (data, kind)) :: rest =>
    let st' :=
      if str_eqb elem k_root then dset (file_key dest_dir path file_name) data st
      else match kind with
           | Some Includr => st
           | _ => let '(p, f) := parse_include_path elem path index false in
                  dset (file_key dest_dir p f) data st
           end in
    write_areas dest_dir path file_name index rest st'
  end.
Definition unpack_code_file (dest_dir path file_name : list N) (index : list (list N * list N)) (text : list N) (st : store) : res store :=
  match unpack text with
  | Ok a => Ok (write_areas dest_dir path file_name index a st)
  | Err _ => Err ExtExc
  end.

(** lines 75-117 pack_file without version mode.  pack_get_descent_filename is then the identity
    (organizer_file.py 228-230), so the folder passed on is the same folder written as an
    absolute path in some cases; that does not change which file is opened and is left out.
    [fuel] bounds the nesting of includes (an include chain that returns to itself never ends). *)
Definition file_directive (dd : option (list N)) (line : list N) : list N :=
  match dd with
  | Some (c :: d) => if starts a_dyn1 (strip line) then (c :: d) ++ [32] ++ line else line
  | _ => line
  end.
Fixpoint pack_file (fuel : nat) (st : store) (src_dir path file_name : list N) (index : list (list N * list N))
    (dd : option (list N)) : res (list N) :=
  match fuel with
  | O => Err Timeout
  | S fuel' =>
    match dget (file_key src_dir path file_name) st with
    | None => Err ExtExc
    | Some text =>
      (fix go (ls : list (list N)) : res (list N) :=
         match ls with
         | [] => Ok []
         | l :: rest =>
           let _line := strip l in
           let line := file_directive dd l in
           inc <- match is_area _line with
                  | Some _ =>
                    let parts := area_name_parts _line in
                    let dd' := match parts with _ :: d :: _ => Some d | _ => dd end in
                    let '(p, f) := parse_include_path (hd [] parts) path index false in
                    pack_file fuel' st src_dir p f index dd'
                  | None => Ok []
                  end ;;
           r <- go rest ;;
           Ok (line ++ inc ++ r)
         end) (lines text)
    end
  end.
