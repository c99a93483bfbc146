(** Model of the classes of forms among the classes that the loops of Tree.v and EncodeLoop.v handle (the parameters of
    Real.v): the modules *Form.py of /repo/src/v8unpack/MetaDataObject/ and MetaDataObject/Form/__init__.py.

    The container uuid of the parent (MetaObject/__init__.py 36-37, core/Container.py 64-67, MetaObject/ExternalDataProcessor.py
    51-53), which extraction and build give to the tasks of included objects (MetaObject/__init__.py 108 and 207), is a
    function of the identifier of the form here.  container_given / container_read are what is given to them by a parent with a
    file of its own. *)
From Coq Require Import String.
From Verif Require Import PyBase PyText Utf Brace JsonText JsonTextProofs JsonObj Header Pipeline ObjCode Payload Classes EncodeLoop Types Include Tree Real Form MetaObj.
Set Implicit Arguments.
Open Scope list_scope.
Open Scope N_scope.

(** AccountingRegisterForm.py ... TaskForm.py line 4, Form/__init__.py 6 *)
Definition form_classes : list fclass := Eval vm_compute in
  (map (fun s => mkfclass (u s) RForm0)
    ["AccountingRegisterForm"; "BusinessProcessForm"; "ChartOfAccountsForm"; "ChartOfCharacteristicTypeForm"; "ExternalDataSourceCubeForm"; "ExternalDataSourceTableForm"; "TaskForm"]%string
  ++ map (fun s => mkfclass (u s) RForm1)
    ["AccumulationRegisterForm"; "CalculationRegisterForm"; "CatalogForm"; "ChartOfCalculationTypesForm"; "CommonForm"; "DocumentForm"; "DocumentJournalForm"; "EnumForm"; "ExchangePlanForm";
     "FilterCriterionForm"; "InformationRegisterForm"; "SettingsStorageForm"]%string
  ++ map (fun s => mkfclass (u s) RForm) ["Form"; "ReportForm"]%string).
(** helper.get_class of a class of forms *)
Definition form_of (t : list N) : option fclass := find (fun c => str_eqb t (f_name c)) form_classes.

(** the classes of core/Container.py 64-67: their container uuid is header[0][1][1] *)
Definition form_containers : list (list N) := Eval vm_compute in map u ["Catalog"; "DataProcessor"; "Document"]%string.
(** what an object with this header tree gives to its forms when it is extracted: MetaObject/__init__.py 56, 108 *)
Definition container_given (t : list N) (data : val) : res val :=
  if existsb (str_eqb t) form_containers then vat [0; 1; 1]%nat data else Ok VNone.
(** and when it is built: MetaDataObject/__init__.py 127-132, after the identifiers of [c] are in their places again *)
Definition container_read (c : class) (version : list N) (srcs : folder) : res val :=
  jids <- json_read srcs (dotted (c_name c) x_idjson) ;; jh <- json_read srcs (dotted (c_name c) x_json) ;;
  ids <- match jids with Jobj d => Ok (header_of d) | _ => Err ExtExc end ;;
  h <- match jh with Jobj d => Ok (header_of d) | _ => Err ExtExc end ;;
  tree <- field s_header h ;; tree <- put_ids (ids_of c (VStr version)) ids tree ;;
  container_given (c_name c) tree.

Section Forms.
Variable os : platform.
Variable valid : list N -> bool.
Variable repr : val -> list N.
Variable left : ekind -> val -> jval.
Variable auto : bool.
Variable old_dec : nat -> val -> res (val * jval).
Variable old_enc : nat -> jval -> val -> res val.
Variable cont : list N -> option (list N).                  (* the container uuid of the parent of a form *)
(** decoder.py 94-106 with a form: it includes no objects (core/Simple.py 14-15) *)
Definition forms_dec (src : folder) (t uuid : list N) : res (list N * folder * list (list N * list (child (list N * folder)))) :=
  match form_of t with
  | Some c => ' (_, name, own) <- form_decode os valid repr left auto old_dec c [] (cont uuid) src uuid ;; Ok (name, own, [])
  | None => Err ExtExc
  end.
(** decoder.py 161-173 with a form *)
Definition forms_enc (i : info folder) : res (option val * list written) :=
  match form_of (i_type i) with
  | Some c =>
    match form_encode os repr auto old_enc c None [] (cont (i_uuid i)) (i_data i) [] with
    | Ok (Some (out, b)) => Ok (truthy (VStr (b_uuid b)), map (fun n => (n, dget n out)) (b_files b))
    | Ok None => Err ExtExc
    | Err e => Err e
    end
  | None => Err ExtExc
  end.
End Forms.
