(** Model of a whole form, from a container folder to its source folder and back:
    /repo/src/v8unpack/MetaDataObject/Form/FormCore.py 42-347 and Form/__init__.py 6-51 (with MetaDataObject/__init__.py
    48-71 and 117-173; the classes of Form5.py and Form9.py add nothing).
    The module inside a managed form is modelled in FormCode.v, the elements in FormElem.v and Form27.v, the file of
    elements in FormJson.v and Form27Json.v.

    Simplifications: files <uuid>.0 and <uuid>.1 whose text is no list (brace_file_read gives a str) are errors for a managed
    form; the order of the keys of the header file is not kept; ordinary forms with the option auto_include are read
    and built by parameters. *)
From Coq Require Import String.
From Verif Require Import PyBase PyInt PyText Utf Codecs Brace JsonText JsonTextProofs JsonObj Header Pipeline ObjCode Payload MetaObj FormCode FormElem FormJson Form27 Form27Json.
Set Implicit Arguments.
Open Scope list_scope.
Open Scope N_scope.

Definition k_ftype : list N := Eval vm_compute in u "Тип формы"%string.
Definition k_fver : list N := Eval vm_compute in u "Версия элементов формы"%string.
Definition s_form : list N := Eval vm_compute in u "form"%string.
Definition s_module : list N := Eval vm_compute in u "module"%string.
Definition m_obj : list N := Eval vm_compute in u "obj"%string.
Definition x_elem : list N := Eval vm_compute in u "elem.json"%string.
(** MetaObject/__init__.py 14 *)
Definition form_ext : list (list N * list N) := [(m_obj, s_zero)].
(** Form/__init__.py 7-14 *)
Definition form_versions : list (list N) := Eval vm_compute in map u ["5"; "7"; "9"; "12"; "13"; "14"]%string.

(** ** Where things stand *)
(** Form/__init__.py 20-51: get_form_root of Form, Form1 and Form0 *)
Inductive froot := RForm | RForm1 | RForm0.
Record fclass := mkfclass { f_name : list N; f_root : froot }.
Definition root_path (r : froot) (data : val) : res (list nat) :=
  match r with
  | RForm0 => Ok [0]%nat
  | RForm1 => Ok [0; 1]%nat
  | RForm => v <- vat [0; 1; 0]%nat data ;; if is_str v t0 then Ok [0; 1]%nat else if is_str v t1 then Ok [0; 1; 1]%nat else Err NotImplementedError
  end.
(** Form/__init__.py 34-38 get_version with MetaDataObject/__init__.py 34-47 get_handler *)
Definition form_version (root : list nat) (data : val) : res (list N) :=
  match vat (root ++ [1; 0])%nat data with Ok (VStr s) => if existsb (str_eqb s) form_versions then Ok s else Err ExtExc | _ => Err ExtExc end.
(** FormCore.py 239-246 decode_data *)
Definition form_type (root : list nat) (data : val) : res val :=
  match vat (root ++ [1; 3])%nat data with Ok v => Ok v | Err IndexError => Ok (VStr t0) | Err e => Err e end.

Inductive ekind := KManaged | KOrdinary (at_ : nat) (ver : list N).
(** 22-30 supported_form_versions *)
Definition n_26 : list N := Eval vm_compute in u "26"%string.
Definition n_27 : list N := Eval vm_compute in u "27"%string.
Definition decoders : list (list N * ekind) := Eval vm_compute in
  [(u "0-26", KOrdinary 3 n_26); (u "0-27", KOrdinary 4 n_27); (u "1", KManaged)]%string.

Section Form.
Variable os : platform.
Variable valid : list N -> bool.                        (* uuid.UUID accepts *)
Variable repr : val -> list N.                          (* an f-string with a value that is no str *)
Variable left : ekind -> val -> jval.                   (* the file of elements when the elements could not be read *)
Variable auto : bool.                                   (* option auto_include *)
Variable old_dec : nat -> val -> res (val * jval).      (* ordinary forms with auto_include *)
Variable old_enc : nat -> jval -> val -> res val.

Definition text_of (v : val) : list N := match v with VStr s => s | _ => repr v end.
(** 152-177 get_form_element_decoder: 'Версия элементов формы' and the class *)
Definition decoder_of (ty : val) (form : list val) : res (list N * option ekind) :=
  match form with
  | [] => Ok ([], None)
  | f0 :: _ =>
    if negb (truthy f0) then Ok ([], None)
    else
      s <- vstr ty ;;
      match dget s decoders with
      | Some k => Ok (s, Some k)
      | None =>
        x <- vget f0 0 ;; v <- vget x 0 ;;
        let s := s ++ [45] ++ text_of v in
        match dget s decoders with
        | Some k => Ok (s, Some k)
        | None =>
          s <- match (y <- vget f0 0 ;; y <- vget y 1 ;; vget y 0) with Ok v => Ok (s ++ [45] ++ text_of v) | Err TypeError => Ok s | Err e => Err e end ;;
          Ok (s, dget s decoders)
        end
      end
  end.

(** ** Extraction *)
(** the elements taken out of form[0][0], and the content of the file of elements *)
Definition elements_out (parent : option (list N)) (k : ekind) (x : val) : res (val * jval) :=
  match k with
  | KManaged => l <- vlist x ;; ' (l, fe) <- elems_decode parent l ;; Ok (VList l, felems_json fe)
  | KOrdinary at_ ver => if auto then old_dec at_ x else l <- vlist x ;; ' (l, fe) <- elems27_decode at_ l ;; Ok (VList l, felems27_json ver fe)
  end.
(** 34-39, 226-235: without elements *)
Definition no_elements : jval := felems_json (mkelems (Some []) (Some []) (Some []) (Some []) []).
(** 189-201: a form whose elements cannot be read stays as it was *)
Definition take_elements (parent : option (list N)) (k : option ekind) (form : list val) : res (list val * jval) :=
  match k with
  | None => Ok (form, no_elements)
  | Some k =>
    match form with
    | VList (x :: r) :: rest =>
      match elements_out parent k x with
      | Ok (x', j) => Ok (VList (x' :: r) :: rest, j)
      | Err _ => Ok (form, left k x)
      end
    | _ => Ok (form, left k VNone)
    end
  end.
(** 66-92, 184-185 for an ordinary form: header, modules, forms, and whether code_info_obj is the number 1.  A plain file <uuid>.0
    is looked for below itself (line 77). *)
Definition ordinary_out (src : folder) (uuid : list N) (h : header) : res (header * list (list N * code) * list val * bool) :=
  ' (h, codes, form, one) <-
    match dget (dotted uuid s_zero) src with
    | Some (TDir fo) =>
      f <- brace_read fo s_form ;; ' (c, e) <- read_raw_code fo s_module true ;;
      Ok (dset (k_enc m_obj) (VStr e) h, [(m_obj, c)], [f], true)
    | Some (TFile _) => match os with Posix => Err ExtExc | Windows => Ok (h, [], [VList []], false) end
    | None => Ok (h, [], [], false)
    end ;;
  ' (h, codes) <- decode_code uuid src form_ext true h codes ;;
  Ok (h, codes, form, one).
(** 94-110 for a managed form *)
Definition managed_out (src : folder) (uuid : list N) (h : header) : res (header * list (list N * code) * list val * bool) :=
  match brace_read src (dotted uuid s_zero) with
  | Err FileNotFoundError => Ok (h, [], [VList []], false)
  | Err e => Err e
  | Ok v => l <- vlist v ;; ' (code, l) <- decode_form l ;; Ok (dset (k_info m_obj) (VStr code_mark) h, [(m_obj, CText code)], [VList l], false)
  end.
(** 79-84 *)
Definition second_out (src : folder) (uuid : list N) (form : list val) : res (list val) :=
  match brace_read src (dotted uuid s_one) with Ok v => Ok (form ++ [v]) | Err FileNotFoundError => Ok form | Err e => Err e end.
(** the header file; [one]: code_info_obj is the number 1 *)
Definition form_json (name2 : list (list N * list N)) (h : header) (one : bool) : jval :=
  match header_json name2 h with
  | Jobj d => Jobj (d ++ if one then [(k_info m_obj, Jnum [49])] else [])
  | j => j
  end.
(** 66-69, 179-246; MetaDataObject/__init__.py 48-71.  The identifier, the name and the source folder.  [parent]: the
    container uuid of the parent. *)
Definition form_decode (c : fclass) (prefix : list N) (parent : option (list N)) (src : folder) (file_name : list N) : res (list N * list N * folder) :=
  data <- brace_read src file_name ;;
  root <- root_path (f_root c) data ;; version <- form_version root data ;;
  let at_ := (root ++ [1; 1])%nat in
  hd <- vat at_ data ;; hl <- vlist hd ;;
  ' (o, hl) <- decode_header valid prefix hl true ;;
  data <- vput at_ (VList hl) data ;;
  let uuid := h_uuid o in
  let fname := f_name c in
  ty <- form_type root data ;;
  let h := [(s_uuid, VStr uuid); (s_name, VStr (h_name o)); (s_comment, VStr (h_comment o)); (s_header, data); (k_ftype, ty)] in
  ' (h, codes, form, one) <- (if is_str ty t0 then ordinary_out src uuid h else managed_out src uuid h) ;;
  form <- second_out src uuid form ;;
  ' (vs, k) <- decoder_of ty form ;;
  ' (form, elems) <- take_elements parent k form ;;
  let h := dset s_obj_version (VStr version) (ddel s_uuid (dset s_form (VList form) (dset k_fver (VStr vs) h))) in
  own <- json_write os (Jobj [(s_uuid, Jstr uuid)]) [] (dotted fname x_idjson) ;;
  own <- json_write os (form_json (h_name2 o) h one) own (dotted fname x_json) ;;
  own <- write_decode_code os h codes fname own ;;
  own <- json_write os elems own (dotted fname x_elem) ;;
  Ok (uuid, h_name o, own).

(** ** Build *)
(** the truth value of a number: a digit other than 0 before the exponent (numbers too small for a float are
    not considered) *)
Fixpoint nonzero (s : list N) : bool :=
  match s with [] => false | c :: r => if (c =? 101) || (c =? 69) then false else ((49 <=? c) && (c <=? 57)) || nonzero r end.
(** header.get('code_info_obj') for a number, a boolean or a dictionary, as the text '1' or '' *)
Definition info_back (d : list (list N * jval)) (h : header) : header :=
  let put b := dset (k_info m_obj) (VStr (if b : bool then [49] else [])) h in
  match dget (k_info m_obj) (rev d) with
  | Some (Jnum n) => put (nonzero n)
  | Some (Jbool b) => put b
  | Some (Jobj l) => put (match l with [] => false | _ => true end)
  | _ => h
  end.
(** 314-325 encode_data, for a managed form *)
Definition code_back (codes : list (list N * code)) (form : list val) : res (list val) :=
  code <- match dget m_obj codes with None => Ok [] | Some (CText t) => Ok t | Some _ => Err TypeError end ;;
  match form with
  | [] => Ok []
  | f0 :: rest => l <- vlist f0 ;; l <- encode_form code l ;; Ok (VList l :: rest)
  end.
Definition elements_back (parent : option (list N)) (k : ekind) (j : jval) (x : val) : res val :=
  match k with
  | KManaged => fe <- felems_of j ;; l <- vlist x ;; l <- elems_encode parent fe l ;; Ok (VList l)
  | KOrdinary at_ ver => if auto then old_enc at_ j x else fe <- felems27_of j ;; l <- vlist x ;; l <- elems27_encode fe l ;; Ok (VList l)
  end.
(** 282-303 encode_nested_includes *)
Definition put_elements (parent : option (list N)) (ty : val) (srcs : folder) (fname : list N) (form : list val) : res (list val) :=
  ' (_, k) <- decoder_of ty form ;;
  match k with
  | None => Ok form
  | Some k =>
    match form with
    | VList (x :: r) :: rest =>
      match (j <- json_read srcs (dotted fname x_elem) ;; elements_back parent k j x) with Ok x => Ok (VList (x :: r) :: rest) | Err _ => Err ExtExc end
    | _ => Err ExtExc
    end
  end.
(** 327-347 write_old_encode_object after the header *)
Definition ordinary_back (uuid : list N) (h : header) (codes : list (list N * code)) (form : list val) (out : folder) (files : list (list N)) : res (folder * list (list N)) :=
  match dget (k_info m_obj) h with
  | Some i =>
    if vtruthy i then
      let fn := dotted uuid s_zero in
      sub <- match dget fn out with None => Ok [] | Some (TDir fo) => Ok fo | Some (TFile _) => Err FileExistsError end ;;
      f <- vnth 0 form ;; sub <- brace_write os f sub s_form ;;
      e <- match dget (k_enc m_obj) h with None => Ok e_utf8sig | Some v => vstr v end ;;
      sub <- write_raw_code os (match dget m_obj codes with Some c => c | None => CText [] end) sub s_module e true ;;
      Ok (dset fn (TDir sub) out, files ++ [fn])
    else Ok (out, files)
  | None => Ok (out, files)
  end.
(** 305-325 write_encode_object: the form file of a managed form *)
Definition managed_back (uuid : list N) (form : list val) (out : folder) (files : list (list N)) : res (folder * list (list N)) :=
  match form with
  | [] => Ok (out, files)
  | f :: _ => let fn := dotted uuid s_zero in out <- brace_write os f out fn ;; Ok (out, files ++ [fn])
  end.
Definition second_back (uuid : list N) (form : list val) (out : folder) (files : list (list N)) : res (folder * list (list N)) :=
  match form with
  | _ :: f :: _ => let fn := dotted uuid s_one in out <- brace_write os f out fn ;; Ok (out, files ++ [fn])
  | _ => Ok (out, files)
  end.
(** 256-325; MetaDataObject/__init__.py 117-173.  None: not an object folder.  The product options are not given. *)
Definition form_encode (c : fclass) (options : option (list N)) (pid : list N) (parent : option (list N)) (srcs out : folder) : res (option (folder * built)) :=
  let fname := f_name c in
  match json_read srcs (dotted fname x_idjson) with
  | Err FileNotFoundError => Ok None
  | Err e => Err e
  | Ok jids =>
    match json_read srcs (dotted fname x_json) with
    | Err FileNotFoundError => Ok None
    | Err e => Err e
    | Ok jh =>
      ids <- match jids with Jobj d => Ok (header_of d) | _ => Err ExtExc end ;;
      h <- match jh with Jobj d => Ok (info_back d (header_of d)) | _ => Err ExtExc end ;;
      uuid <- str_field s_uuid ids ;;
      let h := dset s_uuid (VStr uuid) h in
      tree <- field s_header h ;;
      root <- root_path (f_root c) tree ;; _ <- form_version root tree ;;
      let at_ := (root ++ [1; 1])%nat in
      name <- str_field s_name h ;;
      _ <- field s_obj_version h ;;
      codes <- encode_code srcs fname form_ext h [] ;;
      ty <- field k_ftype h ;;
      form <- match dget s_form h with None => Ok [] | Some v => vlist v end ;;
      form <- (if is_str ty t0 then Ok form else code_back codes form) ;;
      form <- put_elements parent ty srcs fname form ;;
      hd <- vat at_ tree ;; hl <- vlist hd ;;
      hl <- encode_header options pid (mkhobj uuid name [] []) hl ;;
      tree <- vput at_ (VList hl) tree ;;
      out <- brace_write os tree out uuid ;;
      ' (out, files) <- (if is_str ty t0 then ordinary_back uuid h codes form out [uuid] else managed_back uuid form out [uuid]) ;;
      ' (out, files) <- second_back uuid form out files ;;
      Ok (Some (out, mkbuilt uuid name files tree))
    end
  end.
End Form.
