(** Model of the files of an object that are not modules: help texts and HTML templates
    (/repo/src/v8unpack/MetaObject/__init__.py 390-452), binary templates and the templates copied as
    they are (MetaDataObject/Template.py 68-225), common pictures (MetaDataObject/CommonPicture.py
    16-43), the splash picture (MetaObject/Configuration.py 143-173), predefined data
    (MetaDataObject/core/Container.py 29-53), XDTO packages (XDTOPackage.py 9-33), information files
    copied as they are (core/SimpleWithInfo.py 8-36).
    Folders and headers as in ObjCode.v; folder creation is not modelled. *)
From Coq Require Import String.
From Verif Require Import PyBase PyText Utf B64 Brace Pipeline ObjCode.
Set Implicit Arguments.
Open Scope list_scope.
Open Scope N_scope.

Definition s_html : list N := Eval vm_compute in u "html"%string.
Definition s_data : list N := Eval vm_compute in u "#data:"%string.
(** base64.b64encode(b).decode('utf-8') *)
Notation b64_text := b64_encode.

(** shutil.copy2 of a file with the bytes [bs] and the name [srcname]; a folder at the destination gets
    the file inside *)
Definition copy_file (srcname bs : list N) (fo : folder) (name : list N) : res folder :=
  match dget name fo with
  | Some (TDir sub) => sub <- put_file srcname bs sub ;; Ok (dset name (TDir sub) fo)
  | _ => Ok (dset name (TFile bs) fo)
  end.

(** l[i] = v *)
Fixpoint set_nth {A} (i : nat) (v : A) (l : list A) : list A :=
  match l, i with [], _ => [] | _ :: t, O => v :: t | x :: t, S k => x :: set_nth k v t end.
(** v[i] for a list, a str or None *)
Definition vget (v : val) (i : nat) : res val :=
  match v with
  | VNone => Err TypeError
  | VStr s => match nth_error s i with Some c => Ok (VStr [c]) | None => Err IndexError end
  | VList l => match nth_error l i with Some x => Ok x | None => Err IndexError end
  end.
(** v[i] = x *)
Definition vset (v : val) (i : nat) (x : val) : res val :=
  match v with
  | VNone | VStr _ => Err TypeError
  | VList l => match nth_error l i with Some _ => Ok (VList (set_nth i x l)) | None => Err IndexError end
  end.
(** v += text: a list is extended by the characters *)
Definition vplus (v : val) (t : list N) : res val :=
  match v with
  | VNone => Err TypeError
  | VStr s => Ok (VStr (s ++ t))
  | VList l => Ok (VList (l ++ map (fun c => VStr [c]) t))
  end.
Definition vlen (v : val) : res nat := match v with VNone => Err TypeError | VStr s => Ok (length s) | VList l => Ok (length l) end.

(** MetaObject/__init__.py 412-424 _extract_b64_data: the bytes, and the argument with its first element
    replaced by the mark *)
Definition extract_b64 (raw : val) : res (list N * val) :=
  x <- vget raw 0 ;;
  match x with
  | VStr s =>
    let take (mark : list N) := b <- b64_decode (skipn (length mark) s) ;; raw <- vset raw 0 (VStr mark) ;; Ok (b, raw) in
    if starts pp_base64 s then take pp_base64
    else if starts p_base64 s then take p_base64
    else if starts s_data s then take s_data
    else Err NotImplementedError
  | _ => Err AttributeError
  end.

(** [v[i]] is true, then [k v[i]] is true; every condition of the form a and a[0] and a[0][0] *)
Definition when_true (r : res val) (k : val -> res bool) : res bool := v <- r ;; if vtruthy v then k v else Ok false.

Section Os.
Variable os : platform.

(** ** MetaObject/__init__.py 390-410 _decode_html_data *)
Definition max_html : N := 1000000.
(** lines 403-409: the bytes to be written, if any, and the data with the payload cut out; an IndexError
    is ignored *)
Definition html_split (data : val) : res (option (list N) * val) :=
  let go :=
    root <- vget data 0 ;;
    cond <- when_true (vget root 3) (fun v => when_true (vget v 0) (fun _ => Ok true)) ;;
    if cond : bool then
      obj <- vget root 3 ;;
      ' (b, obj) <- extract_b64 obj ;;
      root <- vset root 3 obj ;;
      data <- vset data 0 root ;;
      Ok (Some b, data)
    else Ok (None, data) in
  match go with Err IndexError => Ok (None, data) | r => r end.
Definition html_decode (src : folder) (uuid number : list N) (dest : folder) (fname field ext : list N) (h : header)
    : res (folder * header) :=
  let name := dotted uuid number in
  match dget name src with
  | None => Ok (dest, h)
  | Some (TDir _) => Err ExtExc
  | Some (TFile bs) =>
    if max_html <? N.of_nat (length bs) then dest <- copy_file name bs dest (dotted fname s_bin) ;; Ok (dest, h)
    else
      data <- brace_read src name ;;
      ' (b, data) <- html_split data ;;
      dest <- match b with Some b => put_file (dotted fname ext) b dest | None => Ok dest end ;;
      Ok (dest, dset field data h)
  end.

(** lines 439-441: the payload appended to the recorded data *)
Definition html_join (data : val) (b : option (list N)) : res val :=
  root <- vget data 0 ;;
  n <- vlen root ;;
  match b with
  | Some ((_ :: _) as b) =>
    if Nat.ltb 2 n then
      obj <- vget root 3 ;; x <- vget obj 0 ;; x <- vplus x (b64_text b) ;;
      obj <- vset obj 0 x ;; root <- vset root 3 obj ;; vset data 0 root
    else Ok data
  | _ => Ok data
  end.
(** lines 426-445 _encode_html_data: the folder written, the header and the list of files *)
Definition html_encode (src : folder) (fname uuid number : list N) (dest : folder) (field ext : list N) (h : header)
    (files : list (list N)) : res (folder * header * list (list N)) :=
  let name := dotted uuid number in
  let go (b : option (list N)) :=
    match dget field h with
    | None => Ok (dest, h, files)
    | Some data =>
      if vtruthy data then
        data <- html_join data b ;;
        dest <- brace_write os data dest name ;;
        Ok (dest, dset field data h, files ++ [name])
      else Ok (dest, h, files)
    end in
  match bin_read src (dotted fname ext) with
  | Ok b => go (Some b)
  | Err FileNotFoundError =>
    match dget (dotted fname s_bin) src with
    | Some (TFile b) => dest <- copy_file (dotted fname s_bin) b dest name ;; Ok (dest, h, files ++ [name])
    | Some (TDir _) => Err IOError
    | None => go None
    end
  | Err e => Err e
  end.

(** ** Files copied as they are *)
(** shutil.copy2 of a file of one folder into another; a missing source is ignored.
    Template.py 84-94 (decode_scheme_data), core/SimpleWithInfo.py 10-16 *)
Definition copy_out (src : folder) (sname : list N) (dest : folder) (dname : list N) : res folder :=
  match dget sname src with
  | None => Ok dest
  | Some (TDir _) => Err IOError
  | Some (TFile bs) => copy_file sname bs dest dname
  end.
(** core/SimpleWithInfo.py 26-36 *)
Definition copy_back (src : folder) (sname : list N) (dest : folder) (dname : list N) (files : list (list N)) : res (folder * list (list N)) :=
  match dget sname src with
  | None => Ok (dest, files)
  | Some (TDir _) => Err IOError
  | Some (TFile bs) => dest <- copy_file sname bs dest dname ;; Ok (dest, files ++ [dname])
  end.
(** bin_read and bin_write: core/Container.py 29-34 (_decode_predefined), XDTOPackage.py 10-15 *)
Definition bin_out (src : folder) (sname : list N) (dest : folder) (dname : list N) : res folder :=
  match bin_read src sname with
  | Ok b => put_file dname b dest
  | Err FileNotFoundError => Ok dest
  | Err e => Err e
  end.
(** core/Container.py 46-53 (_encode_predefined), XDTOPackage.py 23-31 *)
Definition bin_back (src : folder) (sname : list N) (dest : folder) (dname : list N) (files : list (list N)) : res (folder * list (list N)) :=
  match bin_read src sname with
  | Ok b => dest <- put_file dname b dest ;; Ok (dest, files ++ [dname])
  | Err FileNotFoundError => Ok (dest, files)
  | Err e => Err e
  end.
(** WSReference.py 17-21: shutil.copytree into [name]/[cls]; the destination must not exist *)
Definition tree_out (src : folder) (sname : list N) (dest : folder) (name cls : list N) : res folder :=
  match dget sname src with
  | Some (TDir fo) =>
    match dget name dest with
    | None => Ok (dset name (TDir [(cls, TDir fo)]) dest)
    | Some (TDir sub) => match dget cls sub with None => Ok (dset name (TDir (dset cls (TDir fo) sub)) dest) | Some _ => Err FileExistsError end
    | Some (TFile _) => Err FileExistsError
    end
  | _ => Ok dest
  end.
(** WSReference.py 26-33 *)
Definition tree_back (src : folder) (name cls : list N) (dest : folder) (dname : list N) (files : list (list N)) : res (folder * list (list N)) :=
  match dget name src with
  | Some (TDir sub) =>
    match dget cls sub with
    | Some (TDir fo) => match dget dname dest with None => Ok (dset dname (TDir fo) dest, files ++ [dname]) | Some _ => Err FileExistsError end
    | _ => Ok (dest, files)
    end
  | _ => Ok (dest, files)
  end.

(** ** Templates *)
(** Template.py 14-25 TmplType *)
Inductive tmpl := TTable | TBase64 | TActive | THtml | TText | TGeographic | TScheme | TDesign | TGraphic | TExtension.
Definition s_zero : list N := [48].
Definition s_mxl : list N := Eval vm_compute in u "mxl"%string.
Definition s_txt : list N := Eval vm_compute in u "txt"%string.
Definition s_c1b64 : list N := Eval vm_compute in u "c1b64"%string.

(** helper.py 321-329 get_extension_from_comment; [alnum] is str.isalnum on one character *)
Section Ext.
Variable alnum : N -> bool.
Definition last_word (s : list N) : list N := last (split_ch 32 s) [].
Definition extension_of (comment : list N) : list N :=
  let c := strip comment in
  match c with
  | [] => s_bin
  | _ => let w := last_word c in
         if Nat.ltb (length w) 6 && (match w with [] => false | _ => forallb alnum w end) then w else s_bin
  end.

(** Template.py 99-105 decode_text_data with helper.py 78-84 (the utf-16 and utf-32 codecs are not
    modelled: an error here) *)
Definition text_out (src : folder) (sname : list N) (dest : folder) (dname : list N) : res folder :=
  match dget sname src with
  | None => Ok dest
  | Some (TDir _) => Err IOError
  | Some (TFile bs) => let e := detect_by_bom bs in t <- text_load e bs ;; txt_write os (CText t) dest dname e
  end.
(** Template.py 185-192 encode_text_data *)
Definition text_back (src : folder) (sname : list N) (dest : folder) (dname : list N) (files : list (list N)) : res (folder * list (list N)) :=
  match dget sname src with
  | None => Ok (dest, files)
  | Some (TDir _) => Err IOError
  | Some (TFile bs) => let e := detect_by_bom bs in t <- text_load e bs ;; dest <- txt_write os (CText t) dest dname e ;; Ok (dest, files ++ [dname])
  end.

(** Template.py 110-132 decode_base64_data *)
Definition base64_out (src : folder) (sname : list N) (dest : folder) (fname comment : list N) : res folder :=
  match brace_read src sname with
  | Err BigBase64 => copy_out src sname dest (dotted fname s_c1b64)
  | Err FileNotFoundError => Ok dest
  | Err e => Err e
  | Ok data =>
    root <- vget data 0 ;;
    cond <- when_true (vget root 1) (fun v => when_true (vget v 0) (fun _ => Ok true)) ;;
    if cond : bool then
      obj <- vget root 1 ;; x <- vget obj 0 ;;
      b <- match x with VStr s => b64_decode (skipn 8 s) | _ => Err TypeError end ;;
      _ <- vset obj 0 VNone ;;
      put_file (dotted fname (extension_of comment)) b dest
    else Ok dest
  end.
(** MetaObject/__init__.py 447-452 _get_b64_string *)
Definition b64_string (b : list N) : list N := match b with [] => pp_base64 | _ => p_base64 ++ b64_text b end.
(** Template.py 198-211 encode_base64_data, 216-225 _encode_bin_data *)
Definition base64_back (src : folder) (fname comment : list N) (dest : folder) (dname : list N) (files : list (list N)) : res (folder * list (list N)) :=
  match bin_read src (dotted fname (extension_of comment)) with
  | Ok b => dest <- brace_write os (VList [VList [VStr lit_1; VList [VStr (b64_string b)]]]) dest dname ;; Ok (dest, files ++ [dname])
  | Err FileNotFoundError =>
    match dget (dotted fname s_c1b64) src with
    | Some (TFile b) => dest <- copy_file (dotted fname s_c1b64) b dest dname ;; Ok (dest, files ++ [dname])
    | _ => Ok (dest, files)
    end
  | Err e => Err e
  end.

(** Template.py 31-55 decode_object: the part that handles the content *)
Definition tmpl_out (ty : tmpl) (src : folder) (uuid : list N) (dest : folder) (fname comment : list N) (h : header) : res (folder * header) :=
  let sname := dotted uuid s_zero in
  let keep (r : res folder) := d <- r ;; Ok (d, h) in
  match ty with
  | TTable => keep (copy_out src sname dest (dotted fname s_mxl))
  | TBase64 | TExtension => keep (base64_out src sname dest fname comment)
  | THtml => html_decode src uuid s_zero dest fname s_html s_html h
  | TText => keep (text_out src sname dest (dotted fname s_txt))
  | TActive | TGeographic | TScheme | TDesign | TGraphic => keep (copy_out src sname dest (dotted fname s_bin))
  end.
(** Template.py 149-183 encode_object and the handlers that copy; a missing copy falls back on the
    text *)
Definition scheme_back (src : folder) (fname ext : list N) (dest : folder) (dname : list N) (files : list (list N)) : res (folder * list (list N)) :=
  match dget (dotted fname ext) src with
  | None => text_back src (dotted fname s_txt) dest dname files
  | _ => copy_back src (dotted fname ext) dest dname files
  end.
Definition tmpl_back (ty : tmpl) (src : folder) (fname uuid : list N) (dest : folder) (comment : list N) (h : header) (files : list (list N))
    : res (folder * header * list (list N)) :=
  let dname := dotted uuid s_zero in
  let keep (r : res (folder * list (list N))) := ' (d, f) <- r ;; Ok (d, h, f) in
  match ty with
  | TTable => keep (scheme_back src fname s_mxl dest dname files)
  | TBase64 | TExtension => keep (base64_back src fname comment dest dname files)
  | THtml => html_encode src fname uuid s_zero dest s_html s_html h files
  | TText => keep (text_back src (dotted fname s_txt) dest dname files)
  | TActive | TGeographic | TScheme | TDesign | TGraphic => keep (scheme_back src fname s_bin dest dname files)
  end.

(** ** Pictures *)
(** CommonPicture.py 24-26, Configuration.py 149-151: the payload of data[0][2][0] *)
Definition picture_split (data : val) : res (option (list N) * val) :=
  root <- vget data 0 ;;
  cond <- when_true (vget root 2) (fun v => when_true (vget v 0) (fun w => when_true (vget w 0) (fun _ => Ok true))) ;;
  if cond : bool then
    v <- vget root 2 ;; w <- vget v 0 ;;
    ' (b, w) <- extract_b64 w ;;
    v <- vset v 0 w ;; root <- vset root 2 v ;; data <- vset data 0 root ;;
    Ok (Some b, data)
  else Ok (None, data).
(** data[0][2][0][0] += text *)
Definition picture_join (data : val) (t : list N) : res val :=
  root <- vget data 0 ;; v <- vget root 2 ;; w <- vget v 0 ;; x <- vget w 0 ;;
  x <- vplus x t ;; w <- vset w 0 x ;; v <- vset v 0 w ;; root <- vset root 2 v ;; vset data 0 root.

(** CommonPicture.py 16-31 decode_object; every error is wrapped *)
Definition wrap {A} (r : res A) : res A := match r with Ok a => Ok a | Err _ => Err ExtExc end.
Definition picture_out (src : folder) (uuid : list N) (dest : folder) (fname comment : list N) (h : header) : res (folder * header) :=
  wrap (match brace_read src (dotted uuid s_zero) with
        | Err FileNotFoundError => Ok (dest, h)
        | Err e => Err e
        | Ok data =>
          ' (b, data) <- picture_split data ;;
          dest <- match b with Some b => put_file (dotted fname (extension_of comment)) b dest | None => Ok dest end ;;
          Ok (dest, dset s_info data h)
        end).
(** CommonPicture.py 33-43 encode_object *)
Definition picture_back (src : folder) (fname uuid : list N) (dest : folder) (comment : list N) (h : header) (files : list (list N))
    : res (folder * header * list (list N)) :=
  match bin_read src (dotted fname (extension_of comment)) with
  | Ok b =>
    match dget s_info h with
    | None => Err KeyError
    | Some data =>
      data <- picture_join data (b64_text b) ;;
      dest <- brace_write os data dest (dotted uuid s_zero) ;;
      Ok (dest, dset s_info data h, files ++ [dotted uuid s_zero])
    end
  | Err FileNotFoundError => Ok (dest, h, files)
  | Err e => Err e
  end.
End Ext.

(** Configuration.py 143-155 _decode_images for one picture [elem] (the table has one); [field] is
    'image_' + elem; an IndexError is ignored *)
Definition image_out (src : folder) (uuid number : list N) (dest : folder) (elem field : list N) (h : header) : res (folder * header) :=
  match brace_read src (dotted uuid number) with
  | Err FileNotFoundError => Ok (dest, h)
  | Err e => Err e
  | Ok data =>
    ' (b, data) <- match picture_split data with Err IndexError => Ok (None, data) | r => r end ;;
    dest <- match b with Some b => put_file elem b dest | None => Ok dest end ;;
    Ok (dest, dset field data h)
  end.
(** Configuration.py 157-171 _encode_images *)
Definition image_back (src : folder) (uuid number : list N) (dest : folder) (elem field : list N) (h : header) (files : list (list N))
    : res (folder * header * list (list N)) :=
  b <- match bin_read src elem with Ok b => Ok b | Err FileNotFoundError => Ok [] | Err e => Err e end ;;
  match dget field h with
  | None => Ok (dest, h, files)
  | Some data =>
    if vtruthy data then
      root <- vget data 0 ;; n <- vlen root ;;
      data <- (if Nat.ltb 1 n && negb (Nat.eqb (length b) 0) then picture_join data (b64_text b) else Ok data) ;;
      dest <- brace_write os data dest (dotted uuid number) ;;
      Ok (dest, dset field data h, files ++ [dotted uuid number])
    else Ok (dest, h, files)
  end.
End Os.
