(** Vocabulary for a container folder with its forms: objects of all classes. *)
From Coq Require Import String.
From Verif Require Import PyBase PyInt PyText Utf Brace Spec_Brace JsonText JsonTextProofs JsonObj Pipeline Spec_Stage ObjCode Spec_Obj Payload MetaObj Spec_MetaObj Classes Spec_Container EncodeLoop Types Include Spec_Include IncludeMain Tree Real Spec_Real
  Form Spec_FormObj FormReal Classes MetaObj.
Set Implicit Arguments.
Open Scope list_scope.
Open Scope N_scope.

(** the kinds of forms: which class of forms has its header where (Spec_FormObj.v) *)
Definition kinds_of_forms : list (string * froot) :=
  [("Form", RForm); ("ReportForm", RForm);
   ("AccountingRegisterForm", RForm0); ("BusinessProcessForm", RForm0); ("ChartOfAccountsForm", RForm0); ("ChartOfCharacteristicTypeForm", RForm0); ("ExternalDataSourceCubeForm", RForm0);
   ("ExternalDataSourceTableForm", RForm0); ("TaskForm", RForm0);
   ("AccumulationRegisterForm", RForm1); ("CalculationRegisterForm", RForm1); ("CatalogForm", RForm1); ("ChartOfCalculationTypesForm", RForm1); ("CommonForm", RForm1); ("DocumentForm", RForm1);
   ("DocumentJournalForm", RForm1); ("EnumForm", RForm1); ("ExchangePlanForm", RForm1); ("FilterCriterionForm", RForm1); ("InformationRegisterForm", RForm1); ("SettingsStorageForm", RForm1)]%string.
Definition form_kind (c : fclass) : Prop := exists s, In (s, f_root c) kinds_of_forms /\ f_name c = u s.
(** a form among the objects of a container: its files are <uuid>, <uuid>.0 and <uuid>.1 *)
Definition class_of_form (c : fclass) : class := mkclass (f_name c) [] [] [PStored (u "0"%string); PStored (u "1"%string)] [] [] FAny.

Section S.
Variable os : platform.
Variable alnum : N -> bool.
Variable valid : list N -> bool.
Variable lower : list N -> list N.
Variable left : ekind -> val -> jval.
Variable auto : bool.
Variable old_dec : nat -> val -> res (val * jval).
Variable old_enc : nat -> jval -> val -> res val.
Variable cont : list N -> option (list N).
Variable version : list N.
Variable src : folder.
(** An object of any class, with everything below it, stands in the container folder as it should. *)
Inductive in_place : item -> Prop :=
| in_simple c uuid name locs comment data hdr :
    In c simple_classes -> named valid uuid name -> object_at os alnum c src uuid name locs comment data hdr -> in_file os src uuid data ->
    in_place (Item c uuid name false data [])
| in_inner c uuid name locs comment data hdr :
    In c inner_classes -> named valid uuid name -> object_at os alnum c src uuid name locs comment data hdr -> Forall scalar (concat (leaves (VList data))) ->
    in_place (Item c uuid name true data [])
| in_container c uuid name locs comment data hdr a b count gs more rest xs :
    In c container_classes -> named valid uuid name -> object_at os alnum c src uuid name locs comment data hdr -> in_file os src uuid data ->
    data = list_val a b count gs more :: rest -> list_ok count gs -> types_once gs -> has_ids c (VStr version) b ->
    listed os alnum valid auto src gs xs -> different lower xs -> (forall x, In x xs -> in_place x) ->
    in_place (Item c uuid name false data xs)
| in_form c uuid name locs comment data hdr :
    form_kind c -> named valid uuid name -> form_at left (cont uuid) auto old_dec old_enc os src c uuid name locs comment data hdr ->
    in_place (Item (class_of_form c) uuid name false data []).
End S.
