(** Model of a whole metadata object, from a container folder to its source folder and back:
    /repo/src/v8unpack/MetaDataObject/__init__.py 48-71 (decode), 77-92 (decode_ids, encode_ids,
    write_decode_object), 117-173 (encode), 180-190 (write_encode_object), 206-210
    (set_write_decode_mode) with MetaObject/__init__.py 49-64 (decode_header, encode_header), 454-484
    (_decode_info, _encode_info) and helper.py 46-65 (json_read, json_write); the classes below
    MetaDataObject differ in the data of [class].
    Payloads are modelled in Payload.v, modules in ObjCode.v, the header list in Header.v. *)
From Coq Require Import String.
From Verif Require Import PyBase PyInt PyText Utf Brace JsonText JsonTextProofs JsonObj Header Pipeline ObjCode Payload.
Set Implicit Arguments.
Open Scope list_scope.
Open Scope N_scope.

Definition s_uuid : list N := Eval vm_compute in u "uuid"%string.
Definition s_name : list N := Eval vm_compute in u "name"%string.
Definition s_name2 : list N := Eval vm_compute in u "name2"%string.
Definition s_comment : list N := Eval vm_compute in u "comment"%string.
Definition s_header : list N := Eval vm_compute in u "header"%string.
Definition s_obj_version : list N := Eval vm_compute in u "obj_version"%string.
Definition s_help : list N := Eval vm_compute in u "help"%string.
Definition s_type : list N := Eval vm_compute in u "type"%string.
Definition x_json : list N := Eval vm_compute in u "json"%string.
Definition x_idjson : list N := Eval vm_compute in u "id.json"%string.
Definition x_c1brace : list N := Eval vm_compute in u "0.c1brace"%string.
Definition s_803 : list N := Eval vm_compute in u "803"%string.

(** v[i][j]... and v[i][j]... = x *)
Fixpoint vat (p : list nat) (v : val) : res val := match p with [] => Ok v | i :: r => x <- vget v i ;; vat r x end.
Fixpoint vput (p : list nat) (x : val) (v : val) : res val :=
  match p with [] => Ok x | i :: r => y <- vget v i ;; y <- vput r x y ;; Payload.vset v i y end.

(** ** JSON values and headers *)
(** a decoded value from a JSON value; None: numbers, booleans and dictionaries *)
Fixpoint val_of (j : jval) : option val :=
  match j with
  | Jnull => Some VNone
  | Jstr s => Some (VStr s)
  | Jlist l => (fix go (l : list jval) (acc : list val) : option val :=
                  match l with [] => Some (VList (rev acc)) | x :: r => match val_of x with Some v => go r (v :: acc) | None => None end end) l []
  | _ => None
  end.
(** The dictionary self.header as JSON: 'name2', a dictionary, stands after 'name' (helper.py 123-133).
    The order of the keys of a template, whose 'type' and 'header' come first, is not kept. *)
Definition header_json (name2 : list (list N * list N)) (h : header) : jval :=
  Jobj (flat_map (fun e : list N * val =>
          (fst e, jv (snd e)) :: if str_eqb (fst e) s_name then [(s_name2, Jobj (map (fun kv : list N * list N => (fst kv, Jstr (snd kv))) name2))] else []) h).
(** The dictionary read back, without the values that are numbers, booleans or dictionaries ('name2'
    is not used by a build); the last of repeated keys counts *)
Definition header_of (d : list (list N * jval)) : header :=
  fold_left (fun h (e : list N * jval) => match val_of (snd e) with Some v => dset (fst e) v h | None => h end) d [].
(** d[k] *)
Definition field (k : list N) (h : header) : res val := match dget k h with Some v => Ok v | None => Err KeyError end.
Definition str_field (k : list N) (h : header) : res (list N) := v <- field k h ;; vstr v.

Section Os.
Variable os : platform.
Variable alnum : N -> bool.                     (* str.isalnum on one character *)
Variable valid : list N -> bool.                (* uuid.UUID accepts *)

(** helper.py 57-65 json_write: every error is wrapped *)
Definition json_write (j : jval) (fo : folder) (name : list N) : res folder :=
  match utf8_encode (write_nl os (jprint 0 j)) with Ok bs => put_file name bs fo | Err _ => Err ExtExc end.
(** helper.py 46-55 json_read: FileNotFoundError passes, the rest is wrapped *)
Definition json_read (fo : folder) (name : list N) : res jval :=
  match dget name fo with
  | None => Err FileNotFoundError
  | Some (TDir _) => Err ExtExc
  | Some (TFile bs) => match utf8_decode bs with
                       | Ok t => match jload (univ_nl t) with Some j => Ok j | None => Err ExtExc end
                       | Err _ => Err ExtExc
                       end
  end.

(** ** The files of an object besides its header and its modules *)
Inductive part :=
| PHelp (n : list N) (fname : option (list N))  (* core/Simple.py 8-10, core/Container.py 24-26; Configuration.py 65 gives the name *)
| PRaw (n dname : list N)                       (* core/Container.py 29-53, BusinessProcess.py 12-35 *)
| PPackage                                      (* XDTOPackage.py 8-31 *)
| PInfo                                         (* core/SimpleWithInfo.py 8-36 *)
| PPicture                                      (* CommonPicture.py 16-43 *)
| PTemplate (at_ : list nat)                    (* Template.py 37-55, 149-183; where the type stands *)
| PTree                                         (* WSReference.py 14-33 *)
| PKept (n : list N)                            (* Subsystem.py 13-31, ExchangePlan.py 16-31 *)
| PImage (n elem : list N)                      (* Configuration.py 143-171 *)
| PJson (n : list N)                            (* MetaObject/__init__.py 454-462, 475-484: one file *)
| PForm1                                        (* ExternalDataProcessor.py 33-38, 89-92 *)
| PStored (n : list N).                         (* ConfigurationExtension.py 42-49, 105-109 *)
Definition s_form1 : list N := Eval vm_compute in u "form1"%string.
Definition s_one : list N := [49].
Definition p_image : list N := Eval vm_compute in u "image_"%string.

(** Template.py 14-25 TmplType: value and name *)
Definition tmpl_table : list (tmpl * list N * list N) := Eval vm_compute in
  [(TTable, u "0", u "table"); (TBase64, u "1", u "base64"); (TActive, u "2", u "active_doc"); (THtml, u "3", u "html"); (TText, u "4", u "text");
   (TGeographic, u "5", u "geographic"); (TScheme, u "6", u "scheme"); (TDesign, u "7", u "design"); (TGraphic, u "8", u "graphic_scheme"); (TExtension, u "9", u "extension")]%string.
Fixpoint tmpl_by_value (s : list N) (t : list (tmpl * list N * list N)) : option (tmpl * list N) :=
  match t with [] => None | (ty, v, n) :: r => if str_eqb s v then Some (ty, n) else tmpl_by_value s r end.
Fixpoint tmpl_by_name (s : list N) (t : list (tmpl * list N * list N)) : option tmpl :=
  match t with [] => None | (ty, v, n) :: r => if str_eqb s n then Some ty else tmpl_by_name s r end.

Definition keep {A} (h : header) (r : res A) : res (A * header) := d <- r ;; Ok (d, h).
Definition part_out (p : part) (src : folder) (uuid : list N) (own : folder) (fname : list N) (h : header) : res (folder * header) :=
  match p with
  | PHelp n f => html_decode src uuid n own (match f with Some f => f | None => fname end) s_help s_html h
  | PRaw n dname => keep h (bin_out src (dotted uuid n) own dname)
  | PPackage => keep h (bin_out src (dotted uuid s_zero) own (dotted fname s_bin))
  | PInfo => keep h (copy_out src (dotted uuid s_zero) own (dotted fname x_c1brace))
  | PPicture => comment <- str_field s_comment h ;; picture_out alnum src uuid own fname comment h
  | PTemplate at_ =>
    tree <- field s_header h ;; v <- vat at_ tree ;; v <- vstr v ;;
    match tmpl_by_value v tmpl_table with
    | None => Err ExtExc
    | Some (ty, n) =>
      comment <- str_field s_comment h ;;
      tmpl_out os alnum ty src uuid own fname comment (dset s_type (VStr n) h)
    end
  | PTree => name <- str_field s_name h ;; keep h (tree_out src (dotted uuid s_zero) own name fname)
  | PKept n =>
    match brace_read src (dotted uuid n) with
    | Ok v => Ok (own, dset s_info v h)
    | Err FileNotFoundError => Ok (own, dset s_info VNone h)
    | Err e => Err e
    end
  | PImage n elem => image_out src uuid n own elem (p_image ++ elem) h
  | PJson n =>
    match brace_read src (dotted uuid n) with
    | Ok v => own <- json_write (jv v) own (dotted (dotted fname n) x_json) ;; Ok (own, h)
    | Err FileNotFoundError => Ok (own, h)
    | Err e => Err e
    end
  | PForm1 =>
    match brace_read src (dotted uuid s_one) with
    | Ok v => Ok (own, dset s_form1 v h)
    | Err FileNotFoundError => Ok (own, dset s_form1 VNone h)
    | Err e => Err e
    end
  | PStored n =>                                        (* a folder of this name is skipped *)
    match dget (dotted uuid n) src with
    | Some (TDir _) | None => Ok (own, h)
    | Some (TFile _) => v <- brace_read src (dotted uuid n) ;; Ok (own, dset (s_info ++ n) v h)
    end
  end.
Definition part_back (p : part) (srcs : folder) (fname uuid : list N) (out : folder) (h : header) (files : list (list N))
    : res (folder * header * list (list N)) :=
  let keep2 (r : res (folder * list (list N))) := ' (d, f) <- r ;; Ok (d, h, f) in
  match p with
  | PHelp n f => html_encode os srcs (match f with Some f => f | None => fname end) uuid n out s_help s_html h files
  | PRaw n dname => keep2 (bin_back srcs dname out (dotted uuid n) files)
  | PPackage => keep2 (bin_back srcs (dotted fname s_bin) out (dotted uuid s_zero) files)
  | PInfo => keep2 (copy_back srcs (dotted fname x_c1brace) out (dotted uuid s_zero) files)
  | PPicture => comment <- str_field s_comment h ;; picture_back os alnum srcs fname uuid out comment h files
  | PTemplate _ =>
    n <- str_field s_type h ;;
    match tmpl_by_name n tmpl_table with
    | None => Err KeyError
    | Some ty => comment <- str_field s_comment h ;; tmpl_back os alnum ty srcs fname uuid out comment h files
    end
  | PTree => name <- str_field s_name h ;; keep2 (tree_back srcs name fname out (dotted uuid s_zero) files)
  | PKept n =>
    v <- field s_info h ;;
    if vtruthy v then out <- brace_write os v out (dotted uuid n) ;; Ok (out, h, files ++ [dotted uuid n]) else Ok (out, h, files)
  | PImage n elem => image_back os srcs uuid n out elem (p_image ++ elem) h files
  | PJson n =>
    match json_read srcs (dotted (dotted fname n) x_json) with
    | Ok j => match val_of j with
              | None => Err ExtExc                      (* numbers, dictionaries: brace_file_write fails *)
              | Some v => out <- brace_write os v out (dotted uuid n) ;; Ok (out, h, files ++ [dotted uuid n])
              end
    | Err FileNotFoundError => Ok (out, h, files)
    | Err e => Err e
    end
  | PForm1 =>                                           (* header.get *)
    match dget s_form1 h with
    | Some v => if vtruthy v then out <- brace_write os v out (dotted uuid s_one) ;; Ok (out, h, files ++ [dotted uuid s_one]) else Ok (out, h, files)
    | None => Ok (out, h, files)
    end
  | PStored n =>                                        (* the code does not add the name to a list; here it is noted *)
    match dget (s_info ++ n) h with
    | Some v => out <- brace_write os v out (dotted uuid n) ;; Ok (out, h, files ++ [dotted uuid n])
    | None => Ok (out, h, files)
    end
  end.
Fixpoint parts_out (ps : list part) (src : folder) (uuid : list N) (own : folder) (fname : list N) (h : header) : res (folder * header) :=
  match ps with
  | [] => Ok (own, h)
  | p :: r => ' (own, h) <- part_out p src uuid own fname h ;; parts_out r src uuid own fname h
  end.
Fixpoint parts_back (ps : list part) (srcs : folder) (fname uuid : list N) (out : folder) (h : header) (files : list (list N))
    : res (folder * header * list (list N)) :=
  match ps with
  | [] => Ok (out, h, files)
  | p :: r => ' (out, h, files) <- part_back p srcs fname uuid out h files ;; parts_back r srcs fname uuid out h files
  end.

(** ** Objects *)
(** [c_path]: get_decode_header (AccountingRegister.py 12-18 chooses by version: two classes here).
    [c_parts]: the files handled in decode_object and encode_object before the modules; [c_late]: after
    them (write_encode_object).  [c_ids]: DataProcessor.py 20-46, further identifiers kept in the id
    file: key, the mark left in the header, the position in header[0][1].  [c_format]: what header[0][1][0]
    must be (MetaDataObject/__init__.py 33-47: a class with versions; AccountingRegister.py 13-18). *)
Inductive format := FAny | FIs (v : list N) | FAbove (n : Z) | FUpTo (n : Z).
Record class := mkclass { c_name : list N; c_path : list nat; c_parts : list part; c_late : list part;
                          c_ext : list (list N * list N); c_ids : list (list N * list N * nat); c_format : format }.
Definition format_ok (f : format) (tree : val) : bool :=
  match f with
  | FAny => true
  | FIs v => match vat [0; 1; 0]%nat tree with Ok (VStr s) => str_eqb s v | _ => false end
  | FAbove n => match vat [0; 1; 0]%nat tree with Ok (VStr s) => match int_of_str s with Ok z => (n <? z)%Z | Err _ => false end | _ => false end
  | FUpTo n => match vat [0; 1; 0]%nat tree with Ok (VStr s) => match int_of_str s with Ok z => (z <=? n)%Z | Err _ => false end | _ => false end
  end.

(** DataProcessor.py 23-34: identifiers taken out (the four positions are different, so that reading them
    one by one is the same) *)
Fixpoint take_ids (l : list (list N * list N * nat)) (tree : val) : res (list (list N * val) * val) :=
  match l with
  | [] => Ok ([], tree)
  | (k, mark, i) :: r =>
    x <- vat [0%nat; 1%nat; i] tree ;; tree <- vput [0%nat; 1%nat; i] (VStr mark) tree ;;
    ' (ids, tree) <- take_ids r tree ;; Ok ((k, x) :: ids, tree)
  end.
(** DataProcessor.py 36-43 *)
Fixpoint put_ids (l : list (list N * list N * nat)) (ids : header) (tree : val) : res val :=
  match l with
  | [] => Ok tree
  | (k, _, i) :: r => x <- field k ids ;; tree <- vput [0%nat; 1%nat; i] x tree ;; put_ids r ids tree
  end.
Definition ids_of (c : class) (version : val) : list (list N * list N * nat) :=
  match version with VStr s => if starts s_803 s then c_ids c else [] | _ => [] end.

(** MetaDataObject/__init__.py 55-71, 77-92, 206-210 on the header tree of the object: its identifier,
    the name of its folder, which must not exist, the content of the folder and what decode_includes gives.
    [includes]: what decode_includes does to the header tree, and what else it gives.  [version]: the
    attribute obj_version. *)
Definition obj_decode_data (X : Type) (c : class) (prefix : list N) (version : val) (includes : val -> res (val * X)) (src : folder) (data : val)
    : res (list N * list N * folder * X) :=
  _ <- (if format_ok (c_format c) data then Ok tt else Err ExtExc) ;;
  hd <- vat (c_path c) data ;; hl <- vlist hd ;;
  ' (o, hl) <- decode_header valid prefix hl true ;;
  data <- vput (c_path c) (VList hl) data ;;
  let uuid := h_uuid o in
  let fname := c_name c in
  let h := [(s_uuid, VStr uuid); (s_name, VStr (h_name o)); (s_comment, VStr (h_comment o)); (s_header, data)] in
  ' (own, h) <- parts_out (c_parts c) src uuid [] fname h ;;
  ' (h, codes) <- decode_code uuid src (c_ext c) false h [] ;;
  ' (own, h) <- parts_out (c_late c) src uuid own fname h ;;
  tree <- field s_header h ;;
  ' (tree, x) <- includes tree ;;
  ' (ids, tree) <- take_ids (ids_of c version) tree ;;
  let h := dset s_obj_version version (ddel s_uuid (dset s_header tree h)) in
  own <- json_write (Jobj ((s_uuid, Jstr uuid) :: map (fun e : list N * val => (fst e, jv (snd e))) ids)) own (dotted fname x_idjson) ;;
  own <- json_write (header_json (h_name2 o) h) own (dotted fname x_json) ;;
  own <- write_decode_code os h codes fname own ;;
  Ok (uuid, h_name o, own, x).
(** MetaDataObject/__init__.py 48-54: an object with a file of its own *)
Definition obj_decode (X : Type) (c : class) (prefix version : list N) (includes : val -> res (val * X)) (src : folder) (file_name : list N)
    : res (list N * list N * folder * X) :=
  data <- brace_read src file_name ;; obj_decode_data c prefix (VStr version) includes src data.
(** core/IncludeSimple.py 20-33 decode_internal_include: an object inside the file of its parent; there is
    no obj_version and decode_includes is not called *)
Definition inner_decode (c : class) (prefix : list N) (src : folder) (data : val) : res (list N * list N * folder * unit) :=
  obj_decode_data c prefix VNone (fun t => Ok (t, tt)) src data.

(** what a build of one object gives: uuid, name, files, and what the parent gets (its header tree) *)
Record built := mkbuilt { b_uuid : list N; b_name : list N; b_files : list (list N); b_tree : val }.
(** MetaDataObject/__init__.py 117-190 once the included objects are known.  None: not an object folder.
    [fill]: what fill_header_includes does to the header tree.  [store]: false for an object inside the file
    of its parent (core/IncludeSimple.py 42-48).  The product options (set_product_comment) are not given. *)
Definition obj_encode (store : bool) (c : class) (options : option (list N)) (version parent_id : list N) (fill : val -> res val) (srcs out : folder)
    : res (option (folder * built)) :=
  let fname := c_name c in
  match json_read srcs (dotted fname x_idjson) with
  | Err FileNotFoundError => Ok None
  | Err e => Err e
  | Ok jids =>
    match json_read srcs (dotted fname x_json) with
    | Err FileNotFoundError => Ok None
    | Err e => Err e
    | Ok jh =>
      ids <- match jids with Jobj d => Ok (header_of d) | _ => Err ExtExc end ;;
      h <- match jh with Jobj d => Ok (header_of d) | _ => Err ExtExc end ;;
      uuid <- str_field s_uuid ids ;;
      let h := dset s_uuid (VStr uuid) h in
      tree <- field s_header h ;;
      _ <- (if format_ok (c_format c) tree then Ok tt else Err ExtExc) ;;
      tree <- put_ids (ids_of c (VStr version)) ids tree ;;
      name <- str_field s_name h ;;
      _ <- field s_obj_version h ;;
      tree <- fill tree ;;
      let h := dset s_header tree h in
      ' (out, h, files) <- parts_back (c_parts c) srcs fname uuid out h [] ;;
      codes <- encode_code srcs fname (c_ext c) h [] ;;
      tree <- field s_header h ;;
      hd <- vat (c_path c) tree ;; hl <- vlist hd ;;
      hl <- encode_header options parent_id (mkhobj uuid name [] []) hl ;;
      tree <- vput (c_path c) (VList hl) tree ;;
      let h := dset s_header tree h in
      ' (out, files) <- (if store then out <- brace_write os tree out uuid ;; Ok (out, files ++ [uuid]) else Ok (out, files)) ;;
      ' (out, files) <- write_encode_code os uuid h codes (c_ext c) false out files ;;
      ' (out, h, files) <- parts_back (c_late c) srcs fname uuid out h files ;;
      Ok (Some (out, mkbuilt uuid name files tree))
    end
  end.
End Os.
