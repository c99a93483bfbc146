(** Model of the three roots and of the choice between them: /repo/src/v8unpack/decoder.py 22-78
    (get_handler_by_version_file, detect_version), 80-92 (decode), 110-162 (encode, get_encoder),
    MetaObject/Configuration.py 41-180, MetaObject/ConfigurationExtension.py 20-112,
    MetaObject/ExternalDataProcessor.py 14-105 and MetaObject/__init__.py 233-239 (encode_versions), 366-388
    (set_product_info), helper.py 331-340 (check_version).

    The files of a root are read and written in a folder of their own here: the source folder without the
    folders of the objects, the container folder without the files of the objects.
    Errors that end up wrapped in ExtException keep the class of the first error or are ExtException. *)
From Coq Require Import String.
From Verif Require Import PyBase PyInt PyText Utf Brace JsonText JsonTextProofs JsonObj Header Pipeline Codecs ObjCode Payload MetaObj Classes EncodeLoop Types Include Tree Real.
Set Implicit Arguments.
Open Scope list_scope.
Open Scope N_scope.

Definition f_root : list N := Eval vm_compute in u "root"%string.
Definition f_version : list N := Eval vm_compute in u "version"%string.
Definition f_versions : list N := Eval vm_compute in u "versions"%string.
Definition f_copyinfo : list N := Eval vm_compute in u "copyinfo"%string.
Definition f_configinfo : list N := Eval vm_compute in u "configinfo"%string.
Definition f_version_bin : list N := Eval vm_compute in u "version.bin"%string.
Definition k_v8unpack : list N := Eval vm_compute in u "v8unpack"%string.
Definition k_file_uuid : list N := Eval vm_compute in u "file_uuid"%string.
Definition k_compat : list N := Eval vm_compute in u "compatibility_version"%string.
Definition n_help : list N := Eval vm_compute in u "help"%string.
Definition n_splash : list N := Eval vm_compute in u "Заставка"%string.
Definition s_801 : list N := Eval vm_compute in u "801"%string.
Definition s_802 : list N := Eval vm_compute in u "802"%string.
Definition s_106 : list N := Eval vm_compute in u "106"%string.
Definition s_two : list N := [50].
Definition s_six : list N := [54].
Definition versions_word : list N := Eval vm_compute in u "____versions____"%string.
(** version.py *)
Definition v8_version : list N := Eval vm_compute in u "1.2.11"%string.

Inductive rkind := RConfig | RExt | RProc.

(** The three classes as data: name (the file of the header), place of the header list, files before and after
    encode_code, modules.  Configuration.py 12-34, ConfigurationExtension.py 9-18, ExternalDataProcessor.py
    (MetaObject/__init__.py 14). *)
Definition root_class (k : rkind) : class := Eval vm_compute in
  match k with
  | RConfig => mkclass (u "Configuration") [0; 3; 1; 1; 1; 1]%nat [PHelp (u "3") (Some n_help); PImage (u "2") n_splash]
      (map (fun s => PJson (u s)) ["4"; "9"; "8"; "10"; "a"; "b"; "c"; "d"; "e"; "f"])
      [(u "seance", u "7"); (u "app", u "6"); (u "802", u "0"); (u "con", u "5")] [] FAny
  | RExt => mkclass (u "ConfigurationExtension") [0; 3; 1; 1; 1; 1]%nat [PStored (u "8"); PStored (u "9")] [PJson (u "a")]
      [(u "con", u "5"); (u "app", u "6"); (u "ssn", u "7")] [] FAny
  | RProc => mkclass (u "ExternalDataProcessor") [0; 3; 1; 1; 3; 1]%nat [PForm1] [] [(u "obj", u "0")] [] FAny
  end%string.
(** the place of the compatibility version: Configuration.py 58-62, ConfigurationExtension.py 34-38 *)
Definition compat_at (k : rkind) : list nat := match k with RExt => [0; 3; 1; 1; 43] | _ => [0; 3; 1; 1; 26] end%nat.
Definition product_at : list nat := [0; 3; 1; 1; 15]%nat.                    (* Configuration.py 85 *)
Definition ext_prefix_at : list nat := [0; 3; 1; 1; 42]%nat.                 (* ConfigurationExtension.py 78-80 *)

(** decoder.py 22-55.  VNone: an argument that is not given. *)
Definition kind_of_type (t : list N) : option rkind :=
  if str_eqb t (c_name (root_class RProc)) || str_eqb t (u "ExternalReport"%string) then Some RProc
  else if str_eqb t (c_name (root_class RConfig)) then Some RConfig else None.
Definition handler_configinfo (configinfo : val) : res (rkind * list N) :=
  if vtruthy configinfo then
    s <- vat [0; 1; 0]%nat configinfo ;; s <- vstr s ;; n <- int_of_str s ;;
    if (216 <=? n)%Z then
      l <- vat [0; 1]%nat configinfo ;; len <- vlen l ;;
      if (len =? 3)%nat then
        v <- vat [0; 1; 2; 0]%nat configinfo ;; v <- vstr v ;;
        if starts s_803 v then Ok (RExt, v) else Err ExtExc
      else Err ExtExc
    else Err ExtExc
  else Err ExtExc.
Definition handler (root : bool) (version header configinfo : val) : res (rkind * list N) :=
  if root then
    s <- vat [0; 0; 0]%nat version ;; s <- vstr s ;; n <- int_of_str s ;;
    if (216 <=? n)%Z then
      l <- vat [0; 0]%nat version ;; len <- vlen l ;;
      t <- vat [0; 3; 0]%nat header ;;
      match type_of t with
      | None => Err ValueError
      | Some t =>
        ov <- (if (len =? 2)%nat then Ok s_802
               else if (len =? 3)%nat then
                 v <- vat [0; 0; 2; 0]%nat version ;; v <- vstr v ;;
                 let v := firstn 3 v in
                 if (length v =? 3)%nat then Ok v
                 else if str_eqb v [49] || str_eqb v [50] then Ok s_802 else Err ExtExc
               else Err ExtExc) ;;
        match kind_of_type t with Some k => Ok (k, ov) | None => Err ExtExc end
      end
    else if str_eqb s s_106 then Ok (RProc, s_801) else handler_configinfo configinfo
  else handler_configinfo configinfo.
(** decoder.py 57-78 *)
Definition detect (src : folder) : res (rkind * list N) :=
  ' (root, version, header) <-
    match dget f_root src with
    | Some (TFile _) =>
      version <- brace_read src f_version ;; root <- brace_read src f_root ;;
      fu <- vat [0; 1]%nat root ;; fu <- vstr fu ;; header <- brace_read src fu ;; Ok (root, version, header)
    | _ => Ok (VNone, VNone, VNone)
    end ;;
  configinfo <- match dget f_configinfo src with Some (TFile _) => brace_read src f_configinfo | _ => Ok VNone end ;;
  handler (vtruthy root) version header configinfo.

(** helper.py 331-340; [ours] is the version of the program.  (AssertionError, ValueError: ExtExc) *)
Definition check_version (ours src : list N) : res unit :=
  match split_str [46] ours, split_str [46] src with
  | [a; b; _], [c; d; _] =>
    a <- int_of_str a ;; b <- int_of_str b ;; c <- int_of_str c ;; d <- int_of_str d ;;
    if (a =? c)%Z && (b =? d)%Z then Ok tt else Err ExtExc
  | _, _ => Err ExtExc
  end.

(** metadata_types.py 4-11 MetaDataGroup *)
Definition group_ids : list (list N) := Eval vm_compute in
  map u ["9cd510cd-abfc-11d4-9434-004095e12fc7"; "9fcd25a0-4822-11d4-9414-008048da11f9"; "e3687481-0a87-462c-a166-9f34594f9bba";
         "9de14907-ec23-4a07-96f0-85521cb6b53b"; "51f2d5d8-ea4d-4064-8892-82951750031e"; "e68182ea-4237-4383-967f-90c1e3370bc7";
         "fb282519-d103-4dd3-bc12-cb271d631dfc"]%string.
Definition group_known (v : val) : bool := match v with VStr s => existsb (str_eqb s) group_ids | _ => false end.

(** Something done to the list of included objects of a group: Configuration.py 91-96, 186-191.
    ExtException for a group that is not known. *)
Definition in_group (A : Type) (f : val -> res (val * A)) (g : val) : res (val * A) :=
  gid <- vget g 0 ;;
  w <- vat [1; 0]%nat g ;;
  if group_known gid then
    let p := match w with VStr s => if str_eqb s s_six then [1; 1] else [1] | _ => [1] end%nat in
    inc <- vat p g ;; ' (inc, x) <- f inc ;; g <- vput p inc g ;; Ok (g, x)
  else Err ExtExc.
Fixpoint in_groups (A : Type) (f : val -> res (val * A)) (gs : list val) : res (list val * list A) :=
  match gs with
  | [] => Ok ([], [])
  | g :: r => ' (g, x) <- in_group f g ;; ' (r, xs) <- in_groups f r ;; Ok (g :: r, x :: xs)
  end.
(** header_data[0][3], [4], ...: their number is header_data[0][2] *)
Definition in_root (A : Type) (f : val -> res (val * A)) (tree : val) : res (val * list A) :=
  top <- vget tree 0 ;;
  match top with
  | VList (a :: b :: VStr c :: rest) =>
    n <- int_of_str c ;;
    let n := Z.to_nat n in
    if (length rest <? n)%nat then Err IndexError
    else ' (gs, xs) <- in_groups f (firstn n rest) ;;
         tree <- Payload.vset tree 0 (VList (a :: b :: VStr c :: gs ++ skipn n rest)) ;; Ok (tree, xs)
  | _ => Err ExtExc
  end.
Definition proc_list : list nat := [0; 3; 1]%nat.                            (* ExternalDataProcessor.py 62-64 *)

Section Root.
Variable os : platform.
Variable alnum : N -> bool.
Variable valid : list N -> bool.
Variable lower : list N -> list N.
Variable auto : bool.                                (* option auto_include *)
Variable fresh : nat -> list N.                      (* str(uuid4()), the n-th call *)

Notation kids := (list (list N * list (child (list N * folder)))).
(** Configuration.py 87-97, MetaObject/__init__.py 66-69.  The folders of the types are made one after the
    other: no type twice (os.mkdir). *)
Definition root_includes (k : rkind) (src : folder) (tree : val) : res (val * kids) :=
  match k with
  | RProc => inc <- vat proc_list tree ;; ' (inc, ks) <- dec_include auto (inner_of os alnum valid src) inc ;; tree <- vput proc_list inc tree ;; Ok (tree, ks)
  | _ => ' (tree, kss) <- in_root (dec_include auto (inner_of os alnum valid src)) tree ;;
         if nodup_names (map fst (concat kss)) then Ok (tree, concat kss) else Err ExtExc
  end.
(** Configuration.py 173-199, MetaObject/__init__.py 131-146; called only with auto_include and a non-empty
    index (Configuration.py 112-113, ConfigurationExtension.py 88-89, ExternalDataProcessor.py 76-77) *)
Definition root_fill (k : rkind) (idx : option (tindex val)) (tree : val) : res val :=
  match auto, idx with
  | true, Some ((_ :: _) as d) =>
    match k with
    | RProc => inc <- vat proc_list tree ;; inc <- vfill_include lower d inc ;; vput proc_list inc tree
    | _ => ' (tree, _) <- in_root (fun i => i <- vfill_include lower d i ;; Ok (i, tt)) tree ;; Ok tree
    end
  | _, _ => Ok tree
  end.

(** obj_version in ['802', '801'] *)
Definition old_format (v : list N) : bool := str_eqb v s_802 || str_eqb v s_801.

(** ** Extraction *)
(** MetaObject/__init__.py 49-58, ConfigurationExtension.py 31-32: the header list is read, and changed if
    there is a prefix *)
Definition root_header (k : rkind) (prefix : list N) (data : val) : res (hobj * val) :=
  hd <- vat (c_path (root_class k)) data ;; hl <- vlist hd ;;
  ' (o, hl) <- decode_header valid prefix hl false ;;
  data <- vput (c_path (root_class k)) (VList hl) data ;; Ok (o, data).
Definition id_entries (o : hobj) (data : val) : header :=
  [(s_uuid, VStr (h_uuid o)); (s_name, VStr (h_name o)); (s_comment, VStr (h_comment o)); (s_header, data)].

(** Configuration.py 41-74.  The result: the source files of the root and its included objects. *)
Definition config_decode (prefix version : list N) (src : folder) : res (folder * kids) :=
  let c := root_class RConfig in
  root <- brace_read src f_root ;;
  fu <- vat [0; 1]%nat root ;; fus <- vstr fu ;;
  data <- brace_read src fus ;;
  ' (o, data) <- root_header RConfig prefix data ;;
  v <- brace_read src f_version ;; vs <- brace_read src f_versions ;;
  compat <- vat (compat_at RConfig) data ;;
  let h := [(k_v8unpack, VStr v8_version); (k_file_uuid, fu); (f_root, root)] ++ id_entries o data ++ [(f_version, v); (f_versions, vs); (k_compat, compat)] in
  ' (h, codes) <- decode_code (h_uuid o) src (c_ext c) (old_format version) h [] ;;
  ' (own, h) <- parts_out os alnum (c_parts c) src (h_uuid o) [] (c_name c) h ;;
  ' (own, h) <- parts_out os alnum (c_late c) src (h_uuid o) own (c_name c) h ;;
  tree <- field s_header h ;;
  ' (tree, ks) <- root_includes RConfig src tree ;;
  let h := dset s_obj_version (VStr version) (dset s_header tree h) in
  own <- json_write os (header_json (h_name2 o) h) own (dotted (c_name c) x_json) ;;
  own <- write_decode_code os h codes (c_name c) own ;;
  Ok (own, ks).
(** ConfigurationExtension.py 20-58 *)
Definition ext_decode (prefix version : list N) (src : folder) : res (folder * kids) :=
  let c := root_class RExt in
  root <- brace_read src f_configinfo ;;
  fu <- vat [1; 1]%nat root ;; fus <- vstr fu ;;
  v <- vat [0; 1]%nat root ;; copy <- vget root 1 ;;
  data <- brace_read src fus ;;
  ' (o, data) <- root_header RExt prefix data ;;
  product <- vat product_at data ;;
  compat <- vat (compat_at RExt) data ;;
  let h := [(f_configinfo, root); (k_v8unpack, VStr v8_version); (k_file_uuid, fu); (f_version, v); (f_copyinfo, copy)] ++ id_entries o data ++ [(k_compat, compat)] in
  ' (h, codes) <- decode_code (h_uuid o) src (c_ext c) false h [] ;;
  ' (own, h) <- parts_out os alnum (c_parts c) src (h_uuid o) [] (c_name c) h ;;
  ' (own, h) <- parts_out os alnum (c_late c) src (h_uuid o) own (c_name c) h ;;
  tree <- field s_header h ;;
  ' (tree, ks) <- root_includes RExt src tree ;;
  p <- vstr product ;;
  own <- txt_write os (CText (str_decode p)) own f_version_bin e_utf8 ;;
  let h := dset s_obj_version (VStr version) (dset s_header tree h) in
  own <- json_write os (header_json (h_name2 o) h) own (dotted (c_name c) x_json) ;;
  own <- write_decode_code os h codes (c_name c) own ;;
  Ok (own, ks).
(** ExternalDataProcessor.py 14-53; 'root' is stored as True.  (The order of the keys is not kept.) *)
Definition with_root (j : jval) : jval := match j with Jobj d => Jobj ((f_root, Jbool true) :: d) | _ => j end.
Definition proc_decode (prefix version : list N) (src : folder) : res (folder * kids) :=
  let c := root_class RProc in
  root <- brace_read src f_root ;;
  fu <- vat [0; 1]%nat root ;; fus <- vstr fu ;;
  data <- brace_read src fus ;;
  ' (o, data) <- root_header RProc prefix data ;;
  v <- brace_read src f_version ;; copy <- brace_read src f_copyinfo ;;
  let h := [(k_file_uuid, fu)] ++ id_entries o data ++ [(k_v8unpack, VStr v8_version); (f_version, v); (f_copyinfo, copy)] in
  ' (own, h) <- parts_out os alnum (c_parts c) src (h_uuid o) [] (c_name c) h ;;
  ' (h, codes) <- decode_code (h_uuid o) src (c_ext c) (old_format version) h [] ;;
  tree <- field s_header h ;;
  ' (tree, ks) <- root_includes RProc src tree ;;
  let h := dset s_obj_version (VStr version) (dset s_header tree h) in
  own <- json_write os (with_root (header_json (h_name2 o) h)) own (dotted (c_name c) x_json) ;;
  own <- write_decode_code os h codes (c_name c) own ;;
  Ok (own, ks).
Definition root_decode (k : rkind) (prefix version : list N) (src : folder) : res (folder * kids) :=
  match k with RConfig => config_decode prefix version src | RExt => ext_decode prefix version src | RProc => proc_decode prefix version src end.

(** ** Build *)
(** MetaObject/__init__.py 233-239 *)
Fixpoint version_lines (n : nat) (files : list (list N)) : list val :=
  match files with [] => [] | f :: r => VStr (str_encode f) :: VStr (fresh n) :: version_lines (S n) r end.
Definition encode_versions (files : list (list N)) : val :=
  VList [VList (VStr s_one :: VStr (str_of_int (Z.of_nat (length files + 1))) :: VStr (str_encode []) :: VStr (fresh 0) :: version_lines 1 files)].

(** The options of a build that a root looks at: version, prefix, product (build_all), product_version (from
    version.bin, [] if absent), and the name of the built file *)
Record ropts := mkropts { o_version : option (list N); o_prefix : option (list N); o_product : list N; o_product_version : list N; o_file : list N }.
Variable o : ropts.
(** Configuration.py 103-110, ConfigurationExtension.py 67-75 *)
Definition set_compat (k : rkind) (h : header) (tree : val) : res val :=
  match o_version o with
  | Some v => vput (compat_at k) (VStr v) tree
  | None => match dget k_compat h with Some v => vput (compat_at k) v tree | None => Ok tree end
  end.
(** MetaObject/__init__.py 369-388 set_product_info: the comment.  Nothing is changed without product_version,
    without the name of a file or without 'ver:' in the comment. *)
Definition product_comment (k : rkind) (tree : val) : res val :=
  match o_file o with
  | [] => Ok tree
  | _ =>
    hd <- vat (c_path (root_class k)) tree ;; hl <- vlist hd ;; c <- vnth 4 hl ;; c <- vstr c ;;
    let d := str_decode c in
    match find_sub ver_mark d with
    | None => Ok tree
    | Some _ =>
      if (length (o_product_version o) =? 0)%nat then Ok tree
      else hl <- Header.vset 4 (VStr (str_encode (set_product_comment true (o_file o ++ [58] ++ o_product_version o) [] d))) hl ;;
           vput (c_path (root_class k)) (VList hl) tree
    end
  end.
(** Configuration.py 76-85 (called for extensions only) *)
Definition set_product_version (tree : val) : res val :=
  let v := match o_product o with [] => o_product_version o | p => p ++ [95] ++ o_product_version o end in
  vput product_at (VStr (str_encode v)) tree.

Definition stored_version (h : header) : res (list N) :=
  match dget k_v8unpack h with None => Ok [] | Some v => vstr v end.

(** Configuration.py 99-138: the files written and the names listed in 'versions'; [listed] are the files of
    the included objects *)
Definition config_encode (version : list N) (h : header) (srcs : folder) (idx : option (tindex val)) (listed : list (list N)) : res (folder * list (list N)) :=
  let c := root_class RConfig in
  sv <- stored_version h ;; _ <- check_version v8_version sv ;;
  tree <- field s_header h ;; tree <- set_compat RConfig h tree ;; tree <- root_fill RConfig idx tree ;;
  let h := dset s_header tree h in
  uuid <- str_field s_uuid h ;; fu <- str_field k_file_uuid h ;;
  r <- field f_root h ;; out <- brace_write os r [] f_root ;;
  v <- field f_version h ;; out <- brace_write os v out f_version ;;
  ' (out, h, own) <- parts_back os alnum (c_parts c) srcs (c_name c) uuid out h [] ;;
  codes <- encode_code srcs (c_name c) (c_ext c) h [] ;;
  ' (out, h, own) <- parts_back os alnum (c_late c) srcs (c_name c) uuid out h own ;;
  ' (out, own) <- write_encode_code os uuid h codes (c_ext c) (old_format version) out own ;;
  tree <- field s_header h ;; out <- brace_write os tree out fu ;;
  let files := listed ++ [f_root; f_version; fu; f_versions] ++ own in
  out <- brace_write os (encode_versions files) out f_versions ;;
  Ok (out, files).
(** ConfigurationExtension.py 60-112: there is no list of files *)
Definition ext_encode (version : list N) (h : header) (srcs : folder) (idx : option (tindex val)) : res (folder * list (list N)) :=
  let c := root_class RExt in
  tree <- field s_header h ;;
  tree <- set_product_version tree ;; tree <- product_comment RExt tree ;; tree <- set_compat RExt h tree ;;
  tree <- match o_prefix o with Some p => vput ext_prefix_at (VStr (str_encode p)) tree | None => Ok tree end ;;
  sv <- stored_version h ;; _ <- check_version v8_version sv ;;
  tree <- root_fill RExt idx tree ;;
  let h := dset s_header tree h in
  uuid <- str_field s_uuid h ;; fu <- str_field k_file_uuid h ;;
  v <- field f_version h ;; copy <- field f_copyinfo h ;;
  codes <- encode_code srcs (c_name c) (c_ext c) h [] ;;
  ' (out, own) <- write_encode_code os uuid h codes (c_ext c) false [] [] ;;
  ' (out, h, own) <- parts_back os alnum (c_late c) srcs (c_name c) uuid out h own ;;
  out <- brace_write os (VList [VList [VStr [48]; v]; copy; VList [VStr versions_word]]) out f_configinfo ;;
  tree <- field s_header h ;; out <- brace_write os tree out fu ;;
  ' (out, h, own) <- parts_back os alnum (c_parts c) srcs (c_name c) uuid out h own ;;
  Ok (out, [f_configinfo; fu] ++ own).
(** ExternalDataProcessor.py 64-105 *)
Definition proc_encode (version : list N) (h : header) (srcs : folder) (idx : option (tindex val)) (listed : list (list N)) : res (folder * list (list N)) :=
  let c := root_class RProc in
  sv <- stored_version h ;; _ <- check_version v8_version sv ;;
  tree <- field s_header h ;; tree <- product_comment RProc tree ;; tree <- root_fill RProc idx tree ;;
  let h := dset s_header tree h in
  uuid <- str_field s_uuid h ;; fu <- str_field k_file_uuid h ;;
  out <- brace_write os (VList [VList [VStr s_two; VStr fu; VStr []]]) [] f_root ;;
  v <- field f_version h ;; out <- brace_write os v out f_version ;;
  copy <- field f_copyinfo h ;; out <- brace_write os copy out f_copyinfo ;;
  out <- brace_write os tree out fu ;;
  ' (out, h, form) <- parts_back os alnum (c_parts c) srcs (c_name c) uuid out h [] ;;
  codes <- encode_code srcs (c_name c) (c_ext c) h [] ;;
  ' (out, own) <- write_encode_code os uuid h codes (c_ext c) (old_format version) out [] ;;
  let files := listed ++ [f_root; f_version; f_copyinfo; fu] ++ form ++ [f_versions] ++ own in
  out <- brace_write os (encode_versions files) out f_versions ;;
  Ok (out, files).
Definition root_encode (k : rkind) (version : list N) (h : header) (srcs : folder) (idx : option (tindex val)) (listed : list (list N)) : res (folder * list (list N)) :=
  match k with RConfig => config_encode version h srcs idx listed | RExt => ext_encode version h srcs idx | RProc => proc_encode version h srcs idx listed end.
End Root.

(** decoder.py 156-162 get_encoder: the first of the four files that there is *)
Definition root_files : list (list N) := Eval vm_compute in map u ["ExternalDataProcessor"; "ExternalReport"; "Configuration"; "ConfigurationExtension"]%string.
Definition root_file (srcs : folder) : option (list N) := find (fun n => match dget (dotted n x_json) srcs with Some (TFile _) => true | _ => false end) root_files.
(** the truth value of header.get('root') *)
Definition jtruthy (j : jval) : bool :=
  match j with Jnull | Jstr [] | Jlist [] | Jobj [] => false | Jbool b => b | _ => true end.
Definition root_given (d : list (list N * jval)) : bool := match dget f_root (rev d) with Some j => jtruthy j | None => false end.
Definition arg (k : list N) (h : header) : val := match dget k h with Some v => v | None => VNone end.
(** decoder.py 112-117: the header file, the handler and its version *)
Definition open_root (srcs : folder) : res (list N * list N * header * rkind) :=
  match root_file srcs with
  | None => Err FileNotFoundError
  | Some n =>
    j <- json_read srcs (dotted n x_json) ;;
    match j with
    | Jobj d => let h := header_of d in ' (k, v) <- handler (root_given d) (arg f_version h) (arg s_header h) (arg f_configinfo h) ;; Ok (n, v, h, k)
    | _ => Err ExtExc
    end
  end.
(** The header that encode uses: Configuration.encode takes the one just read, the others read <class>.json again *)
Definition header_again (k : rkind) (h : header) (srcs : folder) : res header :=
  match k with
  | RConfig => Ok h
  | _ => j <- json_read srcs (dotted (c_name (root_class k)) x_json) ;; match j with Jobj d => Ok (header_of d) | _ => Err ExtExc end
  end.

Section All.
Variable os : platform.
Variable alnum : N -> bool.
Variable valid : list N -> bool.
Variable lower : list N -> list N.
Variable auto : bool.
Variable fresh : nat -> list N.
(** the classes that are not modelled: the forms *)
Variable other_dec : folder -> list N -> list N -> res (list N * folder * list (list N * list (child (list N * folder)))).
Variable other_enc : info folder -> res (option val * list written).

(** decoder.py 80-92: the source files of the root and the folders of the objects *)
Definition extract_tree (fuel : nat) (sched : nat -> list xtask -> list xtask) (src : folder) : res (folder * sources folder) :=
  ' (k, version) <- detect src ;;
  ' (own, ks) <- root_decode os alnum valid auto k [] version src ;;
  ss <- put_sources (tl (new_sources [] own ks)) [] ;;
  ss <- xloop (real_dec os alnum valid auto version src (other_dec src)) fuel 0 sched ss (new_tasks [] ks) ;;
  Ok (own, ss).
(** decoder.py 110-154: the files written (an extension keeps no list) *)
Definition build_tree (o : ropts) (fuel : nat) (sched : nat -> list (task val folder) -> list (task val folder)) (srcs : folder) (folders : list (node folder)) : res (list written) :=
  ' (_, version, h, k) <- open_root srcs ;;
  ' (idx, files) <- encode_tree (real_enc os alnum lower version other_enc) fuel sched (c_name (root_class k)) folders ;;
  h <- header_again k h srcs ;;
  ' (out, names) <- root_encode os alnum lower auto fresh o k version h srcs idx (map fst files) ;;
  Ok (files ++ map (fun n => (n, dget n out)) (match k with RExt => names | _ => skipn (length files) names end)).
End All.
