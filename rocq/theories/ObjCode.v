(** Model of how an object's modules are taken out of a container folder and put back:
    /repo/src/v8unpack/MetaObject/__init__.py 262-367 (read_raw_code, write_raw_code, decode_code,
    write_decode_code, encode_code, write_encode_code) with the text and binary file helpers
    helper.py 68-112 and 304-319.
    A folder is an association list from names to files and folders ([Pipeline.tree]); the header
    dictionary is an association list to decoded values; [os] selects the newline of text files.
    Folder creation is not modelled (the destination folder exists). *)
From Coq Require Import String.
From Verif Require Import PyBase PyText Utf Cp1251 Codecs Brace Pipeline Directives.
Set Implicit Arguments.
Open Scope list_scope.
Open Scope N_scope.

Definition folder := list (list N * tree).
Definition header := list (list N * val).

Definition s_info : list N := Eval vm_compute in u "info"%string.
Definition s_text : list N := Eval vm_compute in u "text"%string.
Definition s_image : list N := Eval vm_compute in u "image"%string.
Definition s_bin : list N := Eval vm_compute in u "bin"%string.
Definition s_bsl : list N := Eval vm_compute in u "bsl"%string.
Definition s_file : list N := Eval vm_compute in u "file"%string.
Definition p_info : list N := Eval vm_compute in u "code_info_"%string.
Definition p_enc : list N := Eval vm_compute in u "code_encoding_"%string.
Definition k_info (c : list N) : list N := p_info ++ c.
Definition k_enc (c : list N) : list N := p_enc ++ c.
(** f'{a}.{b}' *)
Definition dotted (a b : list N) : list N := a ++ [46] ++ b.
(** line 14 *)
Definition encrypted_types : list (list N) := [s_text; s_image; s_bin].
Definition is_encrypted (e : list N) : bool := existsb (str_eqb e) encrypted_types.

(** a module in memory: None, str or bytes *)
Inductive code := CNone | CText (t : list N) | CBin (b : list N).
Definition has_code (c : code) : bool := match c with CText (_ :: _) | CBin (_ :: _) => true | _ => false end.
(** truth value of a decoded value *)
Definition vtruthy (v : val) : bool := match v with VStr (_ :: _) | VList (_ :: _) => true | _ => false end.

(** helper.py 304-319 detect_by_bom(path, 'utf-8') on the bytes of the file *)
Definition e_utf16 : list N := Eval vm_compute in u "utf-16"%string.
Definition e_utf32 : list N := Eval vm_compute in u "utf-32"%string.
Definition detect_by_bom (bs : list N) : list N :=
  let raw := firstn 4 bs in
  if starts utf8_bom raw then e_utf8sig
  else if starts [255; 254; 0; 0] raw then e_utf32
  else if starts [0; 0; 254; 255] raw then e_utf32
  else if starts [255; 254] raw then e_utf16
  else if starts [254; 255] raw then e_utf16
  else e_utf8.

(** open(path, 'r', encoding=name).read() *)
Definition text_load (name bs : list N) : res (list N) := t <- codec_decode name bs ;; Ok (univ_nl t).

Section Os.
Variable os : platform.
(** open(path, 'w', encoding=name).write(t): the bytes of the file *)
Definition text_store (name t : list N) : res (list N) := codec_encode name (write_nl os t).

(** write one file of a folder; a folder of that name is an error *)
Definition put_file (name bs : list N) (fo : folder) : res folder :=
  match dget name fo with Some (TDir _) => Err ExtExc | _ => Ok (dset name (TFile bs) fo) end.
(** helper.py 86-101 txt_write (the retries are in Retry.v); None is not written *)
Definition txt_write (c : code) (fo : folder) (name encoding : list N) : res folder :=
  match c with
  | CNone => Ok fo
  | CText t => match text_store encoding t with Ok bs => put_file name bs fo | Err _ => Err ExtExc end
  | CBin _ => Err ExtExc                                  (* write() argument must be str *)
  end.
(** helper.py 104-108 bin_write *)
Definition bin_write (c : code) (fo : folder) (name : list N) : res folder :=
  match c with CBin b => put_file name b fo | _ => Err TypeError end.
(** helper.py 68-76 txt_read: FileNotFoundError and UnicodeDecodeError pass, the rest is wrapped *)
Definition txt_read (fo : folder) (name encoding : list N) : res (list N) :=
  match dget name fo with
  | None => Err FileNotFoundError
  | Some (TDir _) => Err ExtExc
  | Some (TFile bs) => match text_load encoding bs with
                       | Err UnicodeDecodeError => Err UnicodeDecodeError
                       | Err _ => Err ExtExc
                       | Ok t => Ok t
                       end
  end.
(** helper.py 111-114 bin_read *)
Definition bin_read (fo : folder) (name : list N) : res (list N) :=
  match dget name fo with None => Err FileNotFoundError | Some (TDir _) => Err IOError | Some (TFile bs) => Ok bs end.

(** lines 262-281 read_raw_code *)
Definition read_raw_code (fo : folder) (name : list N) (uncomment : bool) : res (code * list N) :=
  ' (c, encoding) <-
    match txt_read fo name e_utf8 with
    | Ok t => match dget name fo with Some (TFile bs) => Ok (CText t, detect_by_bom bs) | _ => Err IOError end
    | Err FileNotFoundError => Ok (CNone, e_utf8)
    | Err UnicodeDecodeError =>
      match txt_read fo name e_cp1251 with
      | Ok t => Ok (CText t, e_cp1251)
      | Err UnicodeDecodeError => b <- bin_read fo name ;; Ok (CBin b, s_bin)
      | Err e => Err e
      end
    | Err e => Err e
    end ;;
  Ok (match c with
      | CText t => if has_code c && negb (str_eqb encoding s_bin) && uncomment then CText (uncomment_directives t) else c
      | _ => c
      end, encoding).

(** lines 283-288 write_raw_code *)
Definition write_raw_code (c : code) (fo : folder) (name encoding : list N) (comment : bool) : res folder :=
  match c with
  | CNone => Ok fo
  | CText t => txt_write (if comment then CText (comment_directives t) else c) fo name encoding
  | CBin _ => if comment then Err TypeError else txt_write c fo name encoding
  end.

(** helper.py 16-31 brace_file_read of a file in a folder: a str or a list *)
Definition brace_read (fo : folder) (name : list N) : res val :=
  match dget name fo with
  | None => Err FileNotFoundError
  | Some (TDir _) => Err ExtExc
  | Some (TFile bs) => d <- brace_file_read cp1251_decode bs ;; Ok (match d with DText s => VStr s | DTree l => VList l end)
  end.
(** helper.py 34-43 brace_file_write; a str is iterated character by character *)
Definition brace_write (v : val) (fo : folder) (name : list N) : res folder :=
  match v with
  | VNone => Err ExtExc
  | VStr s => match brace_file_write os (map (fun c => VStr [c]) s) [] with (Ok _, bs) => put_file name bs fo | (Err e, _) => Err e end
  | VList l => match brace_file_write os l [] with (Ok _, bs) => put_file name bs fo | (Err e, _) => Err e end
  end.

(** [ext]: ext_code, module name -> number.  [codes]: self.code.  Lines 290-322 decode_code *)
Section Obj.
Variable uuid : list N.
(** the search for an encrypted module, lines 307-315: the first of the types that is a file *)
Fixpoint find_encrypted (types : list (list N)) (fo : folder) : option (list N * list N) :=
  match types with
  | [] => None
  | t :: rest => match dget t fo with Some (TFile b) => Some (t, b) | _ => find_encrypted rest fo end
  end.
Definition decode_one (src : folder) (name suffix : list N) (uncomment : bool) (h : header) (codes : list (list N * code))
    : res (header * list (list N * code)) :=
  match dget (dotted uuid suffix) src with
  | None => Ok (h, codes)
  | Some (TDir fo) =>
    info <- brace_read fo s_info ;;
    let h := dset (k_info name) info h in
    match read_raw_code fo s_text uncomment with
    | Ok (c, e) => Ok (dset (k_enc name) (VStr e) h, dset name c codes)
    | Err FileNotFoundError =>
      match find_encrypted encrypted_types fo with
      | Some (t, b) => Ok (dset (k_enc name) (VStr t) h, dset name (CBin b) codes)
      | None => Err FileNotFoundError
      end
    | Err e => Err e
    end
  | Some (TFile _) =>
    ' (c, e) <- read_raw_code src (dotted uuid suffix) uncomment ;;
    Ok (dset (k_enc name) (VStr e) (dset (k_info name) (VStr s_file) h), dset name c codes)
  end.
Fixpoint decode_code (src : folder) (ext : list (list N * list N)) (uncomment : bool) (h : header) (codes : list (list N * code))
    : res (header * list (list N * code)) :=
  match ext with
  | [] => Ok (h, codes)
  | (name, suffix) :: rest =>
    ' (h, codes) <- match dget name codes with Some _ => Ok (h, codes) | None => decode_one src name suffix uncomment h codes end ;;
    decode_code src rest uncomment h codes
  end.

(** lines 324-331 write_decode_code *)
Definition source_name (fname name ext : list N) : list N := dotted (dotted fname name) ext.
Definition enc_of (h : header) (name : list N) : option val := dget (k_enc name) h.
Definition enc_encrypted (e : option val) : option (list N) :=
  match e with Some (VStr s) => if is_encrypted s then Some s else None | _ => None end.
Fixpoint write_decode_code (h : header) (codes : list (list N * code)) (fname : list N) (dest : folder) : res folder :=
  match codes with
  | [] => Ok dest
  | (name, c) :: rest =>
    dest <- (if has_code c then
        match enc_encrypted (enc_of h name) with
        | Some e => bin_write c dest (source_name fname name e)
        | None => txt_write c dest (source_name fname name s_bsl) e_utf8
        end
      else Ok dest) ;;
    write_decode_code h rest fname dest
  end.

(** lines 333-343 encode_code *)
Definition encode_one (src : folder) (fname name : list N) (h : header) (codes : list (list N * code)) : res (list (list N * code)) :=
  match dget (k_info name) h with
  | None => Ok codes
  | Some i =>
    if vtruthy i then
      match (match enc_encrypted (enc_of h name) with
             | Some e => b <- bin_read src (source_name fname name e) ;; Ok (CBin b)
             | None => t <- txt_read src (source_name fname name s_bsl) e_utf8sig ;; Ok (CText t)
             end) with
      | Ok c => Ok (dset name c codes)
      | Err FileNotFoundError => Ok (dset name (CText []) codes)
      | Err e => Err e
      end
    else Ok codes
  end.
Fixpoint encode_code (src : folder) (fname : list N) (ext : list (list N * list N)) (h : header) (codes : list (list N * code))
    : res (list (list N * code)) :=
  match ext with
  | [] => Ok codes
  | (name, _) :: rest => codes <- encode_one src fname name h codes ;; encode_code src fname rest h codes
  end.

(** lines 345-367 write_encode_code: the folder written and the list of file names *)
Definition encode_file (name suffix : list N) (c : code) (h : header) (comment : bool) (dest : folder) : res folder :=
  e <- match enc_of h name with None => Ok e_utf8 | Some (VStr e) => Ok e | Some _ => Err TypeError end ;;
  match dget (k_info name) h with
  | None => Err KeyError
  | Some i =>
    let fn := dotted uuid suffix in
    match i with
    | VStr s =>
      if str_eqb s s_file then
        if is_encrypted e then bin_write c dest fn else write_raw_code c dest fn e comment
      else
        match dget fn dest with
        | Some _ => Err FileExistsError
        | None =>
          sub <- brace_write i [] s_info ;;
          sub <- (if is_encrypted e then bin_write c sub s_text else write_raw_code c sub s_text e comment) ;;
          Ok (dset fn (TDir sub) dest)
        end
    | _ =>
      match dget fn dest with
      | Some _ => Err FileExistsError
      | None =>
        sub <- brace_write i [] s_info ;;
        sub <- (if is_encrypted e then bin_write c sub s_text else write_raw_code c sub s_text e comment) ;;
        Ok (dset fn (TDir sub) dest)
      end
    end
  end.
Fixpoint write_encode_code (h : header) (codes : list (list N * code)) (ext : list (list N * list N)) (comment : bool)
    (dest : folder) (files : list (list N)) : res (folder * list (list N)) :=
  match codes with
  | [] => Ok (dest, files)
  | (name, c) :: rest =>
    match dget name ext with
    | None => Err KeyError
    | Some suffix =>
      dest <- encode_file name suffix c h comment dest ;;
      write_encode_code h rest ext comment dest (files ++ [dotted uuid suffix])
    end
  end.
End Obj.
End Os.
