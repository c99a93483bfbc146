(** Model of what the loops of Tree.v and EncodeLoop.v do with the classes of Classes.v:
    MetaDataObject/__init__.py 23-71 (get_version, get_handler, decode) and 117-190 (encode,
    write_encode_object) with the lists of Include.v.

    The option prefix is not given.  Other classes (the forms), which include no objects, are parameters. *)
From Coq Require Import String.
From Verif Require Import PyBase PyText Utf Brace JsonText JsonTextProofs JsonObj Header Pipeline ObjCode Payload MetaObj Classes EncodeLoop Types Include Tree.
Set Implicit Arguments.
Open Scope list_scope.
Open Scope N_scope.

(** names in metadata_types.py for which MetaDataObject/ has no module: helper.get_class raises ImportError *)
Definition no_class : list (list N) := Eval vm_compute in
  map u ["Configuration"; "ExternalDataProcessor"; "ExternalReport"; "FormAttribute"; "TabularSectionAttribute"]%string.

(** the classes of forms: *Form.py line 4 and Form/__init__.py 6 *)
Definition form_types : list (list N) := Eval vm_compute in
  map u ["AccountingRegisterForm"; "BusinessProcessForm"; "ChartOfAccountsForm"; "ChartOfCharacteristicTypeForm"; "ExternalDataSourceCubeForm"; "ExternalDataSourceTableForm"; "TaskForm";
         "AccumulationRegisterForm"; "CalculationRegisterForm"; "CatalogForm"; "ChartOfCalculationTypesForm"; "CommonForm"; "DocumentForm"; "DocumentJournalForm"; "EnumForm"; "ExchangePlanForm";
         "FilterCriterionForm"; "InformationRegisterForm"; "SettingsStorageForm"; "Form"; "ReportForm"]%string.
(** what the files of a container folder are after a build: name and content *)
Definition written : Type := (list N * option tree)%type.

Section Real.
Variable os : platform.
Variable alnum : N -> bool.
Variable valid : list N -> bool.
Variable lower : list N -> list N.
Variable auto : bool.                                (* option auto_include *)
Variable version : list N.                           (* options['obj_version'] *)
Variable src : folder.                               (* the container folder that is read *)
Variable other_dec : list N -> list N -> res (list N * folder * list (list N * list (child (list N * folder)))).
Variable other_enc : info folder -> res (option val * list written).

(** __init__.py 33-47 get_handler; AccountingRegister.py 12-18 *)
Definition pick (t : list N) (tree : val) (cs : list class) : option class :=
  find (fun c => str_eqb t (c_name c) && format_ok (c_format c) tree) cs.
(** the attribute obj_version: the number of the format for classes with versions *)
Definition version_of (c : class) : list N := match c_format c with FIs v => v | _ => version end.
(** MetaObject/__init__.py 113-120: the class of an object inside the file of its parent; classes that are
    not IncludeSimple have no decode_internal_include *)
Definition inner_of (t : list N) : option (val -> res (list N * (list N * folder))) :=
  match find (fun c => str_eqb t (c_name c)) inner_classes with
  | Some c => Some (fun data => ' (uuid, name, own, _) <- inner_decode os alnum valid c [] src data ;; Ok (uuid, (name, own)))
  | None => if existsb (str_eqb t) no_class then None else Some (fun _ => Err ExtExc)
  end.

(** lines 48-71 decode: the name, the source folder and the included objects.  core/IncludeSimple.py 15-18:
    an inner class has no file of its own. *)
Definition real_dec (t uuid : list N) : res (list N * folder * list (list N * list (child (list N * folder)))) :=
  if existsb (fun c => str_eqb t (c_name c)) classes then
    data <- brace_read src uuid ;;
    match pick t data simple_classes with
    | Some c => ' (_, name, own, _) <- obj_decode_data os alnum valid c [] (VStr (version_of c)) (fun t => Ok (t, tt)) src data ;; Ok (name, own, [])
    | None =>
      match pick t data container_classes with
      | Some c => ' (_, name, own, ks) <- obj_decode_data os alnum valid c [] (VStr (version_of c)) (container_decode auto inner_of) src data ;; Ok (name, own, ks)
      | None => Err ExtExc
      end
    end
  else other_dec t uuid.

(** lines 127-131: what a build reads first in a source folder *)
Definition real_rd (t : list N) (own : folder) : option (list N * list N) :=
  match json_read own (dotted t x_idjson) with
  | Err FileNotFoundError => None
  | Err _ => Some ([], [])
  | Ok ji =>
    match json_read own (dotted t x_json) with
    | Err FileNotFoundError => None
    | Ok (Jobj h) =>
      match ji with
      | Jobj i => match str_field s_uuid (header_of i), str_field s_name (header_of h) with Ok uuid, Ok name => Some (name, uuid) | _, _ => Some ([], []) end
      | _ => Some ([], [])
      end
    | _ => Some ([], [])
    end
  end.
(** header['header'] *)
Definition source_tree (t : list N) (own : folder) : res val :=
  jh <- json_read own (dotted t x_json) ;; h <- match jh with Jobj d => Ok (header_of d) | _ => Err ExtExc end ;; field s_header h.
(** core/Simple.py 17-18; forms are Simple too (Form/FormCore.py 20) *)
Definition real_lists (t : list N) : bool := negb (existsb (fun c => str_eqb t (c_name c)) simple_classes || existsb (str_eqb t) form_types).

(** helper.py 245: empty data are not given to the parent *)
Definition truthy (v : val) : option val := match v with VNone | VStr [] | VList [] => None | _ => Some v end.
(** one object; its files are written to a folder of its own here (all have its identifier in their names).
    get_internal_data: lines 104-105, core/IncludeSimple.py 42-43 *)
Definition build_one (store : bool) (c : class) (fill : val -> res val) (own : folder) : res (option val * list written) :=
  match obj_encode os alnum store c None (version_of c) [] fill own [] with
  | Ok (Some (out, b)) => Ok (truthy (if store then VStr (b_uuid b) else b_tree b), map (fun n => (n, dget n out)) (b_files b))
  | Ok None => Err ExtExc
  | Err e => Err e
  end.
(** lines 117-173 encode with the entries of the included objects.  Only the classes of core/Container.py have
    get_decode_includes. *)
Definition real_enc (i : info folder) (idx : tindex val) : res (option val * list written) :=
  let t := i_type i in
  if existsb (fun c => str_eqb t (c_name c)) classes then
    tree <- source_tree t (i_data i) ;;
    match pick t tree simple_classes with
    | Some c => build_one true c (@Ok val) (i_data i)
    | None =>
      match pick t tree container_classes with
      | Some c => build_one true c (container_fill lower idx) (i_data i)
      | None => match pick t tree inner_classes with Some c => build_one false c (@Ok val) (i_data i) | None => Err ExtExc end
      end
    end
  else other_enc i.
End Real.
