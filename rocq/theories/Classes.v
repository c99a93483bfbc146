(** The metadata classes of /repo/src/v8unpack/MetaDataObject/*.py as data for MetaObj.v: one line per
    class, from the file of that name.  core/Container.py 8-53, core/Simple.py 4-24,
    core/SimpleWithInfo.py 7-36 and MetaObject/__init__.py 14 (ext_code), 45-47 (get_decode_header) give
    what a class does not say itself.
    Not here: the forms (Form/, FormCode.v) and the three roots.
    EventSubscription, Interface, Role, ScheduledJob and Style (SimpleWithInfo) and XDTOPackage inherit
    the module 'obj' but never decode it, so that there is no 'code_info_obj' and none is built: no module
    here. *)
From Coq Require Import String.
From Verif Require Import PyBase Utf ObjCode Payload MetaObj.
Open Scope list_scope.

Definition m_obj (n : string) : list N * list N := (u "obj", u n).
Definition m_mgr (n : string) : list N * list N := (u "mgr", u n).
Definition dflt : list (list N * list N) := [m_obj "0"].
Definition help (n : string) : part := PHelp (u n) None.
Definition predefined_name : list N := Eval vm_compute in u "Предустановленные данные.bin"%string.
Definition route_name : list N := Eval vm_compute in u "Карта маршрута.bin"%string.
Definition predef (n : string) : part := PRaw (u n) predefined_name.
Definition obj_class (name : string) (path : list nat) (parts late : list part) (ext : list (list N * list N)) : class :=
  mkclass (u name) path parts late ext [] FAny.
Definition in_format (f : format) (c : class) : class := mkclass (c_name c) (c_path c) (c_parts c) (c_late c) (c_ext c) (c_ids c) f.

Definition path0 : list nat := [0; 1; 1]%nat.

(** DataProcessor.py 23-34 *)
Definition manager_ids : list (list N * list N * nat) := Eval vm_compute in
  [(u "manager_uuid1", u "manager_uuid1 в файле id", 1%nat); (u "manager_uuid2", u "manager_uuid2 в файле id", 2%nat);
   (u "manager_uuid3", u "manager_uuid3 в файле id", 7%nat); (u "manager_uuid4", u "manager_uuid4 в файле id", 8%nat)]%string.

Definition data_processor : class := Eval vm_compute in
  mkclass (u "DataProcessor") [0; 1; 3; 1]%nat [help "1"] [] [m_mgr "2"; m_obj "0"] manager_ids FAny.

(** Classes whose objects are read one at a time (Simple) *)
Definition simple_classes : list class := Eval vm_compute in
  [ obj_class "Bot" path0 [] [] [m_obj "1"];
    obj_class "CommandGroup" [0; 1; 6]%nat [] [] dflt;
    obj_class "CommonAttribute" [0; 1; 1; 1; 1]%nat [] [] dflt;
    obj_class "CommonCommand" [0; 1; 1; 2; 9]%nat [help "1"] [] [m_obj "2"];
    obj_class "CommonModule" path0 [] [] dflt;
    obj_class "CommonPicture" path0 [PPicture] [] [];
    in_format (FIs (u "4")) (obj_class "CommonTemplate" [0; 1; 1]%nat [PTemplate [0; 1; 2]%nat] [] []);        (* CommonTemplate4.py *)
    obj_class "Constant" [0; 1; 1; 1; 1]%nat [] [] [m_mgr "1"; m_obj "0"];
    obj_class "DefinedType" [0; 1; 3]%nat [] [] dflt;
    obj_class "DocumentNumerators" path0 [] [] dflt;
    obj_class "EventSubscription" path0 [PInfo] [] [];
    obj_class "FunctionalOption" path0 [] [] dflt;
    obj_class "FunctionalOptionsParameter" path0 [] [] dflt;
    obj_class "Interface" [0; 1; 2]%nat [PInfo] [] [];
    obj_class "Language" path0 [] [] dflt;
    obj_class "Role" path0 [PInfo] [] [];
    obj_class "ScheduledJob" path0 [PInfo] [] [];
    obj_class "SessionParameter" [0; 1; 1; 1]%nat [] [] dflt;
    obj_class "Style" path0 [PInfo] [] [];
    obj_class "StyleItem" [0; 1; 3]%nat [] [] dflt;
    in_format (FIs (u "2")) (obj_class "Template" [0; 1; 2]%nat [PTemplate [0; 1; 1]%nat] [] []);              (* Template2 *)
    obj_class "WSReference" [0; 1; 2]%nat [PTree] [] [];
    obj_class "XDTOPackage" path0 [PPackage] [] [] ].

(** Classes whose objects may include others (Container).  Of the two lines AccountingRegister the first is
    for int(header[0][1][0]) > 21. *)
Definition container_classes : list class := Eval vm_compute in
  [ in_format (FAbove 21) (obj_class "AccountingRegister" [0; 1; 16; 1]%nat [help "5"] [] [m_obj "6"; m_mgr "7"]);
    in_format (FUpTo 21) (obj_class "AccountingRegister" [0; 1; 15; 1]%nat [help "5"] [] [m_obj "6"; m_mgr "7"]);
    obj_class "AccumulationRegister" [0; 1; 13; 1]%nat [help "0"; predef "3"] [] [m_mgr "2"; m_obj "1"];
    obj_class "BusinessProcess" path0 [help "5"; PRaw (u "7") route_name] [] [m_obj "6"; m_mgr "8"];
    obj_class "CalculationRegister" [0; 1; 15; 1]%nat [help "0"] [] [m_obj "1"; m_mgr "2"];
    obj_class "CalculationRegisterRecalculations" [0; 1; 7; 1]%nat [] [] dflt;
    obj_class "Catalog" [0; 1; 9; 1]%nat [help "1"; predef "1c"] [] [m_mgr "3"; m_obj "0"];
    obj_class "ChartOfAccounts" [0; 1; 15; 1]%nat [help "5"; predef "9"] [] [m_obj "14"; m_mgr "15"];
    obj_class "ChartOfCalculationTypes" [0; 1; 1; 1]%nat [help "1"; predef "2"] [] [m_obj "0"; m_mgr "3"];
    obj_class "ChartOfCharacteristicType" [0; 1; 13; 1]%nat [help "5"; predef "7"] [] [m_mgr "16"; m_obj "15"];
    data_processor;
    obj_class "Document" [0; 1; 9; 1]%nat [help "1"] [] [m_obj "0"; m_mgr "2"];
    obj_class "DocumentJournal" [0; 1; 3; 1]%nat [help "0"] [] [m_mgr "1"];
    obj_class "Enum" [0; 1; 5; 1]%nat [] [] dflt;
    obj_class "ExchangePlan" [0; 1; 12]%nat [help "0"] [PKept (u "1")] [m_obj "2"; m_mgr "3"];
    obj_class "ExternalDataSource" [0; 1; 1; 1]%nat [] [] dflt;
    obj_class "ExternalDataSourceCube" [0; 1; 1; 1]%nat [] [] [m_obj "2"; m_mgr "1"];
    obj_class "ExternalDataSourceTable" [0; 1; 1; 1]%nat [] [] dflt;
    obj_class "FilterCriterion" [0; 1; 5; 1]%nat [] [] dflt;
    obj_class "HTTPService" [0; 1; 2]%nat [] [] dflt;
    obj_class "InformationRegister" [0; 1; 15; 1]%nat [help "0"] [] [m_mgr "2"; m_obj "1"];
    obj_class "IntegrationService" path0 [] [] dflt;
    obj_class "Report" [0; 1; 3; 1]%nat [help "1"] [] [m_mgr "2"; m_obj "0"];
    obj_class "Sequences" [0; 1; 7; 1]%nat [] [] dflt;
    obj_class "SettingsStorage" [0; 1; 1; 1]%nat [] [] [m_mgr "8"];
    obj_class "Subsystem" path0 [help "0"] [PKept (u "1")] [];
    obj_class "Task" path0 [help "5"] [] [m_obj "6"; m_mgr "7"];
    obj_class "WebService" [0; 1; 2]%nat [] [] dflt ].

(** Classes whose objects stand inside the file of their parent (core/IncludeSimple.py 5-48) *)
Definition inner_classes : list class := Eval vm_compute in
  [ obj_class "AccountingRegisterCommand" [0; 1; 2; 9]%nat [] [] [m_obj "2"];
    obj_class "AccumulationRegisterCommand" [0; 1; 2; 9]%nat [] [] [m_obj "2"];
    obj_class "BusinessProcessCommand" [0; 1; 3; 2; 9]%nat [] [] [m_obj "2"];
    obj_class "CalculationRegisterCommand" [0; 1; 2; 9]%nat [] [] [m_obj "2"];
    obj_class "CatalogCommand" [0; 1; 3; 2; 9]%nat [] [] [m_obj "2"];
    obj_class "ChartOfAccountsCommand" [0; 1; 3; 2; 9]%nat [] [] [m_obj "2"];
    obj_class "ChartOfCalculationTypesCommand" [0; 1; 3; 2; 9]%nat [] [] [m_obj "2"];
    obj_class "ChartOfCharacteristicTypeCommand" [0; 1; 3; 2; 9]%nat [] [] [m_obj "2"];
    obj_class "DataProcessorCommand" [0; 1; 2; 9]%nat [] [] [m_obj "2"];
    obj_class "DocumentCommand" [0; 1; 3; 2; 9]%nat [] [] [m_obj "2"];
    obj_class "DocumentJournalCommand" [0; 1; 2; 9]%nat [] [] [m_obj "2"];
    obj_class "EnumCommand" [0; 1; 3; 2; 9]%nat [] [] [m_obj "2"];
    obj_class "ExchangePlanCommand" [0; 1; 3; 2; 9]%nat [] [] [m_obj "2"];
    obj_class "ExternalDataSourceCubeCommand" [0; 1; 3; 2; 9]%nat [] [] [m_obj "2"];
    obj_class "ExternalDataSourceTableCommand" [0; 1; 3; 2; 9]%nat [] [] [m_obj "2"];
    obj_class "FilterCriterionCommand" [0; 1; 3; 2; 9]%nat [] [] [m_obj "2"];
    obj_class "InformationRegisterCommand" [0; 1; 2; 9]%nat [] [] [m_obj "2"];
    obj_class "ReportCommand" [0; 1; 2; 9]%nat [] [] [m_obj "2"];
    obj_class "TaskCommand" [0; 1; 3; 2; 9]%nat [] [] [m_obj "2"] ].

Definition classes : list class := simple_classes ++ container_classes ++ inner_classes.
