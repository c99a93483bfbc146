(** C72, C73: whole forms.
    Model: Form.v (with FormCode.v, FormElem.v, Form27.v, FormJson.v, Form27Json.v); specification: Spec_FormObj.v. *)
From Coq Require Import String Lia.
From Verif Require Import PyBase PyInt PyText Utf Codecs Brace Spec_Brace Spec_Misc JsonText JsonTextProofs JsonObj Header Pipeline UpdateDict UpdateDictProofs Spec_Stage ObjCode Spec_Obj ObjCodeProofs Payload Spec_Payload PayloadProofs CanonCheck
  MetaObj Spec_MetaObj MetaObjBase FormCode Spec_Form FormProofs FormElem Spec_FormElem FormJson Form27 Spec_Form27 Form27Json Form Spec_FormObj FormObjElem FormObjMain FormObjEdit.
From Verif Require Props_Misc Props_FormElem Props_Form27 Props_Obj.
Open Scope list_scope.
Open Scope N_scope.

(** A form of any class, managed or ordinary, with or without files, is extracted to its source files, and a build from
    these files gives back the header file, <uuid>.0 and <uuid>.1 exactly as they were and changes nothing else. *)
Theorem C72_form_restored : forall os valid repr left auto old_dec old_enc c prefix parent (src : folder) uuid name locs comment data hdr options pid,
  (forall v, Forall scalar (concat (leaves v)) -> Forall scalar (repr v)) ->
  form_at left parent auto old_dec old_enc os src c uuid (prefix ++ name) locs comment data hdr -> valid uuid = true ->
  (prefix = [] /\ (options = None \/ options = Some [])) \/ (options = Some prefix /\ Props_Misc.top_level pid /\ Props_Misc.own hdr) ->
  exists own, form_decode os valid repr left auto old_dec c prefix parent src uuid = Ok (uuid, name, own) /\
    (forall n, ~ form_uses c n -> dget n own = None) /\
    forall (srcs out : folder), (forall n, form_uses c n -> dget n srcs = dget n own) ->
      dget uuid out = None -> dget (dotted uuid (u "0"%string)) out = None -> dget (dotted uuid (u "1"%string)) out = None ->
      exists out', form_encode os repr auto old_enc c options pid parent srcs out = Ok (Some (out', mkbuilt uuid name (files_of_form src uuid) (VList data))) /\
        same_entry (dget uuid src) (dget uuid out') /\ same_entry (dget (dotted uuid (u "0"%string)) src) (dget (dotted uuid (u "0"%string)) out') /\
        same_entry (dget (dotted uuid (u "1"%string)) src) (dget (dotted uuid (u "1"%string)) out') /\
        (forall n, n <> uuid -> n <> dotted uuid (u "0"%string) -> n <> dotted uuid (u "1"%string) -> dget n out' = dget n out).
Proof. intros os valid repr left auto old_dec old_enc c prefix parent src uuid name locs comment data hdr options pid Hr. exact (@form_core os valid repr left auto old_dec old_enc Hr c prefix parent src uuid name locs comment data hdr options pid). Qed.
Print Assumptions C72_form_restored.

(** what a build makes of a form, with [zero] in the place of <uuid>.0 *)
Definition built_with os repr auto old_enc (c : fclass) options pid parent (src : folder) uuid name (data : list val) (srcs out : folder) (zero : tree) : Prop :=
  exists out', form_encode os repr auto old_enc c options pid parent srcs out = Ok (Some (out', mkbuilt uuid name (files_of_form src uuid) (VList data))) /\
    same_entry (dget uuid src) (dget uuid out') /\ dget (dotted uuid (u "0"%string)) out' = Some zero /\
    same_entry (dget (dotted uuid (u "1"%string)) src) (dget (dotted uuid (u "1"%string)) out') /\
    (forall n, n <> uuid -> n <> dotted uuid (u "0"%string) -> n <> dotted uuid (u "1"%string) -> dget n out' = dget n out).

(** The module of a managed form is extracted to a source file of its own; a build from sources with another module puts
    exactly that text into the form, in the place where the module stood, and leaves all else as it was. *)
Theorem C73_managed_module_edited : forall os valid repr left auto old_dec old_enc c prefix parent (src : folder) uuid name locs comment data hdr options pid p text bs,
  (forall v, Forall scalar (concat (leaves v)) -> Forall scalar (repr v)) ->
  valid uuid = true -> (prefix = [] /\ (options = None \/ options = Some [])) \/ (options = Some prefix /\ Props_Misc.top_level pid /\ Props_Misc.own hdr) ->
  form_header os src c uuid (prefix ++ name) locs comment data hdr (u "1"%string) ->
  dget (dotted uuid (u "0"%string)) src = Some (TFile bs) -> brace_bytes os (p (literal text)) bs -> place p -> managed_is left parent (p (literal text)) text -> second_is os src uuid ->
  exists own, form_decode os valid repr left auto old_dec c prefix parent src uuid = Ok (uuid, name, own) /\ source_text (dget (module_source c) own) text /\
    forall (srcs out : folder) t' bs', same_but_module c own srcs -> source_text (dget (module_source c) srcs) t' -> brace_bytes os (p (literal t')) bs' ->
      dget uuid out = None -> dget (dotted uuid (u "0"%string)) out = None -> dget (dotted uuid (u "1"%string)) out = None ->
      built_with os repr auto old_enc c options pid parent src uuid name data srcs out (TFile bs').
Proof.
  intros os valid repr left auto old_dec old_enc c prefix parent src uuid name locs comment data hdr options pid p text bs Hr Hv Hp Hh Hd Hb Pl Hm Hs.
  destruct (@managed_edited os valid repr left auto old_dec old_enc parent Hr c prefix src uuid name comment locs data hdr options pid Hv Hp bs _ text Hh Hd Hb Hm Hs) as (own & D1 & D2 & D3).
  exists own. split; [exact D1|]. split; [exact D2|]. intros srcs out t' bs' H1 H2 H3 O O0 O1. exact (D3 srcs out t' H1 H2 O O0 O1 _ _ bs' (getset_place p (literal text) (literal t') Pl) H3).
Qed.
Print Assumptions C73_managed_module_edited.

(** The module of an ordinary form: the source file holds the text of the module with its directives, and a build from
    sources with another module writes that text, its directives hidden, in the encoding the module had. *)
Theorem C73_ordinary_module_edited : forall os valid repr left auto old_dec old_enc c prefix parent (src : folder) uuid name locs comment data hdr options pid fo bs l mbs enc,
  (forall v, Forall scalar (concat (leaves v)) -> Forall scalar (repr v)) ->
  valid uuid = true -> (prefix = [] /\ (options = None \/ options = Some [])) \/ (options = Some prefix /\ Props_Misc.top_level pid /\ Props_Misc.own hdr) ->
  form_header os src c uuid (prefix ++ name) locs comment data hdr (u "0"%string) ->
  dget (dotted uuid (u "0"%string)) src = Some (TDir fo) -> dget (u "form"%string) fo = Some (TFile bs) -> brace_bytes os l bs -> ordinary_is auto old_dec old_enc l ->
  dget (u "module"%string) fo = Some (TFile mbs) -> module_is os mbs -> second_is os src uuid -> encoding_of mbs enc ->
  exists own, form_decode os valid repr left auto old_dec c prefix parent src uuid = Ok (uuid, name, own) /\
    (exists t t2, source_text (dget (module_source c) own) t /\ hidden t t2 /\ text_in os enc mbs t2) /\
    forall (srcs out : folder) t' t2 mbs', same_but_module c own srcs -> source_text (dget (module_source c) srcs) t' -> hidden t' t2 -> text_in os enc mbs' t2 ->
      dget uuid out = None -> dget (dotted uuid (u "0"%string)) out = None -> dget (dotted uuid (u "1"%string)) out = None ->
      built_with os repr auto old_enc c options pid parent src uuid name data srcs out (TDir [(u "form"%string, TFile bs); (u "module"%string, TFile mbs')]).
Proof.
  intros os valid repr left auto old_dec old_enc c prefix parent src uuid name locs comment data hdr options pid fo bs l mbs enc Hr Hv Hp Hh Hd Hf Hb Ho Hmod Hm Hs He.
  destruct (@ordinary_edited os valid repr left auto old_dec old_enc parent Hr c prefix src uuid name comment locs data hdr options pid Hv Hp fo bs l mbs enc Hh Hd Hf Hb Ho Hmod Hm Hs He) as (own & D1 & D2 & D3).
  exists own. split; [exact D1|]. split; [exact D2|]. intros srcs out t' t2 mbs' H1 H2 H3 H4 O O0 O1. exact (D3 srcs out t' H1 H2 O O0 O1 t2 mbs' H3 H4).
Qed.
Print Assumptions C73_ordinary_module_edited.

(** A managed form in which no place for a module is found: whatever module is put among its sources is ignored. *)
Theorem C73_no_place_refuted : forall os valid repr left auto old_dec old_enc c parent (src : folder) uuid name locs comment data hdr pid bs front y z,
  (forall v, Forall scalar (concat (leaves v)) -> Forall scalar (repr v)) -> valid uuid = true ->
  form_header os src c uuid name locs comment data hdr (u "1"%string) ->
  dget (dotted uuid (u "0"%string)) src = Some (TFile bs) -> brace_bytes os [VList (front ++ [y; z])] bs ->
  (6 <= length front)%nat -> ~ first_kind [VList front] -> (forall l, z <> VList l) -> ~ holds_module (front ++ [y; z]) -> managed_elems left parent (front ++ [y; z]) (front ++ [y; z]) -> second_is os src uuid ->
  exists own, form_decode os valid repr left auto old_dec c [] parent src uuid = Ok (uuid, name, own) /\
    forall (srcs out : folder) t', same_but_module c own srcs -> source_text (dget (module_source c) srcs) t' ->
      dget uuid out = None -> dget (dotted uuid (u "0"%string)) out = None -> dget (dotted uuid (u "1"%string)) out = None ->
      built_with os repr auto old_enc c None pid parent src uuid name data srcs out (TFile bs).
Proof.
  intros os valid repr left auto old_dec old_enc c parent src uuid name locs comment data hdr pid bs front y z Hr Hv Hh Hd Hb Hf Hk Hz Hi He Hs.
  destruct (@managed_edited os valid repr left auto old_dec old_enc parent Hr c [] src uuid name comment locs data hdr None pid Hv (or_introl (conj eq_refl (or_introl eq_refl))) bs _ [] Hh Hd Hb (@mg_self_none _ _ front y z Hf Hk Hz Hi He) Hs) as (own & D1 & D2 & D3).
  exists own. split; [exact D1|]. intros srcs out t' H1 H2 O O0 O1. exact (D3 srcs out t' H1 H2 O O0 O1 _ _ bs (@self_none left repr old_dec front y z (literal t') Hf Hk Hz Hi) Hb).
Qed.
Print Assumptions C73_no_place_refuted.

(** ** Examples *)
Definition fx_class : fclass := Eval vm_compute in mkfclass (u "CatalogForm"%string) RForm1.
Definition fx_uuid : list N := Eval vm_compute in u "0e3a7a1c-4d4f-4b8e-9a55-6f1e1b0c9d2f"%string.
Definition fx_name : list N := Eval vm_compute in u "ФормаЭлемента"%string.
Definition fx_prefix : list N := Eval vm_compute in u "пр_"%string.
Definition fx_locs : list (list N * list N) := Eval vm_compute in [(u "ru", u "Форма элемента")]%string.
Definition fx_hdr : list val := Eval vm_compute in
  [VStr (u "3"); VList [VStr (u "1"); VStr (u "0"); VStr fx_uuid]; Spec_Misc.quoted (fx_prefix ++ fx_name); locale_list fx_locs []; Spec_Misc.quoted (u "note"); VStr (u "0")]%string.
Definition fx_data (type : list val) : list val := let z := VStr (u "0"%string) in [VList [VStr (u "1"%string); VList [z; VList ([VStr (u "13"%string); VList fx_hdr; z] ++ type)]; z]].
Definition fx_new : list val := Eval vm_compute in fx_data [VStr (u "1"%string); VStr (u "2"%string)].
Definition fx_old : list val := Eval vm_compute in fx_data [].
Definition fx_newb : list N := Eval vm_compute in snd (brace_file_write Posix fx_new []).
Definition fx_oldb : list N := Eval vm_compute in snd (brace_file_write Posix fx_old []).
Definition fx_module : list N := Eval vm_compute in u "&НаКлиенте"%string ++ [10] ++ u "Процедура А() КонецПроцедуры"%string.
(** the form of C66 with a module *)
Definition fx_place (s : list N) : list val := match Props_FormElem.ex_raw with _ :: a :: _ :: r => [VList (VStr t4 :: a :: VStr s :: r)] | _ => [] end.
Definition fx_form (t : list N) : list val := fx_place (literal t).
Definition fx_formb (t : list N) : list N := snd (brace_file_write Posix (fx_form t) []).
Definition fx_second : list val := Eval vm_compute in [VList [VStr (u "2"); VList [VStr (u "0")]]]%string.
Definition fx_secondb : list N := Eval vm_compute in snd (brace_file_write Posix fx_second []).
Definition fx_modb : list N := Eval vm_compute in fx_formb fx_module.
Definition fx_src : folder := [(fx_uuid, TFile fx_newb); (dotted fx_uuid t0, TFile fx_modb); (dotted fx_uuid t1, TFile fx_secondb)].
Lemma fx_header : form_header Posix fx_src fx_class fx_uuid (fx_prefix ++ fx_name) fx_locs (u "note"%string) fx_new fx_hdr (u "1"%string).
Proof.
  constructor.
  - exists fx_newb. split; [reflexivity|]. brace_solve.
  - exists [0; 1]%nat. eexists. split; [constructor|]. split; [reflexivity|]. split; [constructor|]. split; [|reflexivity]. eexists. split; [reflexivity|]. vm_compute. tauto.
  - do 6 eexists. vm_compute. reflexivity.
  - apply nodup_strs. reflexivity.
Qed.
Lemma fx_managed left : managed_is left (Some Props_FormElem.ex_parent) (fx_form fx_module) fx_module.
Proof.
  refine (mg_first _ _ _ _).
  - vm_compute. tauto.
  - split; [vm_compute; intuition discriminate|]. intros r E. vm_compute in E. discriminate E.
  - left. split; [discriminate|]. pose proof Props_FormElem.ex_form as F. apply (@form_is_at _ _ _ _ _ 0 (VStr t4) free_zero) in F. apply (@form_is_at _ _ _ _ _ 2 (VStr (literal fx_module)) free_two) in F. do 4 eexists. exact F.
Qed.
Lemma fx_second_is : second_is Posix fx_src fx_uuid.
Proof. right. exists fx_secondb, fx_second. split; [reflexivity|]. brace_solve. Qed.
(** a managed form with a module, elements, properties, a command and a parameter *)
Example C72_managed_form : forall left auto old_dec old_enc,
  form_at left (Some Props_FormElem.ex_parent) auto old_dec old_enc Posix fx_src fx_class fx_uuid (fx_prefix ++ fx_name) fx_locs (u "note"%string) fx_new fx_hdr.
Proof.
  intros left auto old_dec old_enc. exists (u "1"%string). split; [exact fx_header|]. eapply ff_managed; [reflexivity| |apply fx_managed|exact fx_second_is]. brace_solve.
Qed.
(** an ordinary form with pages, a panel and a hidden directive in its module, extracted without auto_include *)
Definition fx_omod : list N := Eval vm_compute in utf8_bom ++ flat_map utf8_char (u "Перем А;"%string ++ [10] ++ u "// v8unpack &НаКлиенте"%string).
Definition fx_form27b : list N := Eval vm_compute in snd (brace_file_write Posix [VList Props_Form27.ex_raw27] []).
Definition fx_osrc : folder := [(fx_uuid, TFile fx_oldb); (dotted fx_uuid t0, TDir [(s_form, TFile fx_form27b); (s_module, TFile fx_omod)])].
Lemma fx_oheader : forall more, form_header Posix ((fx_uuid, TFile fx_oldb) :: more) fx_class fx_uuid (fx_prefix ++ fx_name) fx_locs (u "note"%string) fx_old fx_hdr (u "0"%string).
Proof.
  intros more. constructor.
  - exists fx_oldb. split; [reflexivity|]. brace_solve.
  - exists [0; 1]%nat. eexists. split; [constructor|]. split; [reflexivity|]. split; [apply ty_none; cbn; lia|]. split; [|reflexivity]. eexists. split; [reflexivity|]. vm_compute. tauto.
  - do 6 eexists. vm_compute. reflexivity.
  - apply nodup_strs. reflexivity.
Qed.
Lemma fx_module_is : module_is Posix fx_omod.
Proof.
  eexists. split; [apply mt_utf8; vm_compute; reflexivity|]. split.
  - apply Props_Obj.native_posix. vm_compute. intuition discriminate.
  - apply Props_Obj.all_hidden_ok. vm_compute. reflexivity.
Qed.
Example C72_ordinary_form : forall left parent old_dec old_enc,
  form_at left parent false old_dec old_enc Posix fx_osrc fx_class fx_uuid (fx_prefix ++ fx_name) fx_locs (u "note"%string) fx_old fx_hdr.
Proof.
  intros left parent old_dec old_enc. exists (u "0"%string). split; [apply fx_oheader|]. eapply ff_ordinary with (l := [VList Props_Form27.ex_raw27]); [reflexivity|reflexivity| | |reflexivity|exact fx_module_is| |left; reflexivity].
  - brace_solve.
  - eapply or_read; [right; left; reflexivity|reflexivity|reflexivity|exact Props_Form27.ex_form27].
  - intros n H1 H2. cbn [dget]. destruct (str_eqb n s_form) eqn:E; [apply str_eqb_spec in E; exfalso; apply H1; exact E|]. destruct (str_eqb n s_module) eqn:E2; [apply str_eqb_spec in E2; exfalso; apply H2; exact E2|]. reflexivity.
Qed.
(** a form without files *)
Example C72_bare_form : forall left parent auto old_dec old_enc,
  form_at left parent auto old_dec old_enc Posix [(fx_uuid, TFile fx_oldb)] fx_class fx_uuid (fx_prefix ++ fx_name) fx_locs (u "note"%string) fx_old fx_hdr.
Proof. intros left parent auto old_dec old_enc. exists (u "0"%string). split; [apply fx_oheader|]. apply ff_none; reflexivity. Qed.
Example C72_prefix : Props_Misc.top_level (u "root"%string) /\ Props_Misc.own fx_hdr.
Proof. split; [vm_compute; intuition discriminate|]. right. reflexivity. Qed.
Example C73_hypotheses_met : place fx_place /\ brace_bytes Posix (fx_place (literal (u "Возврат;"%string))) (fx_formb (u "Возврат;"%string)) /\ encoding_of fx_omod n_sig.
Proof.
  split; [|split].
  - apply place_first. vm_compute. tauto.
  - brace_solve.
  - eapply en_mark with (r := skipn 3 fx_omod); vm_compute; reflexivity.
Qed.
(** a managed form of another kind: no module is found in it *)
Definition fx_other : list val := Props_FormElem.ex_raw ++ [VStr [46]].
Definition fx_otherb : list N := Eval vm_compute in snd (brace_file_write Posix [VList fx_other] []).
Lemma form_is_more raw props cmds pars es y : (6 <= length raw)%nat -> form_is raw props cmds pars es -> form_is (raw ++ [y]) props cmds pars es.
Proof.
  intros Hl6. assert (Sec : forall i vs, (i < 6)%nat -> section_at i vs raw -> section_at i vs (raw ++ [y])).
  { intros i vs Hi H. unfold section_at in *. rewrite nth_error_app1 by lia. exact H. }
  intros [(v0 & front & back & rest & x & data & E & F & L) B (vc & C1 & C2) (vd & D1 & D2) (ve & E1 & E2) F' G]. split; try assumption.
  - exists v0, front, back, (rest ++ [y]), x, data. subst raw. auto.
  - exists vc. split; [apply Sec; [lia|]|]; assumption.
  - exists vd. split; [apply Sec; [lia|]|]; assumption.
  - exists ve. split; [apply Sec; [lia|]|]; assumption.
Qed.
Example C73_no_place_met : forall left, let front := firstn 6 fx_other in
  fx_other = front ++ [VStr [46]; VStr [46]] /\ brace_bytes Posix [VList (front ++ [VStr [46]; VStr [46]])] fx_otherb /\
  (6 <= length front)%nat /\ ~ first_kind [VList front] /\ (forall l, VStr [46] <> VList l) /\ ~ holds_module (front ++ [VStr [46]; VStr [46]]) /\
  managed_elems left (Some Props_FormElem.ex_parent) (front ++ [VStr [46]; VStr [46]]) (front ++ [VStr [46]; VStr [46]]).
Proof.
  intros left front. assert (E : fx_other = front ++ [VStr [46]; VStr [46]]) by reflexivity. split; [exact E|]. rewrite <- E. split; [brace_solve|]. split; [vm_compute; lia|]. split; [|split; [intros l; discriminate|split]].
  - intros F. apply (proj2 (first_kind_spec (VList front) [])) in F. vm_compute in F. discriminate F.
  - intros (v & mid & x & b5 & b4 & b3 & b2 & b1 & Hv & Hm & H). assert (last fx_other VNone = last (VStr v :: mid ++ [x; b5; b4; b3; b2; b1; VStr (u "0"%string); VStr (u "0"%string)]) VNone) as K by (rewrite <- H; reflexivity).
    change (VStr v :: mid ++ [x; b5; b4; b3; b2; b1; VStr (u "0"%string); VStr (u "0"%string)]) with ((VStr v :: mid) ++ [x; b5; b4; b3; b2; b1; VStr (u "0"%string)] ++ [VStr (u "0"%string)]) in K. rewrite app_assoc, last_last in K. vm_compute in K. discriminate K.
  - left. split; [discriminate|]. do 4 eexists. apply form_is_more; [vm_compute; lia|]. exact Props_FormElem.ex_form.
Qed.

(** ** What does not hold *)
Definition no_left (k : ekind) (v : val) : jval := no_elements.
Definition no_repr (v : val) : list N := [].
Definition no_dec (n : nat) (v : val) : res (val * jval) := Err GenericException.
Definition no_enc (n : nat) (j : jval) (v : val) : res val := Err GenericException.
Definition ok_uuid (s : list N) : bool := true.
Definition fx_extract (src : folder) := form_decode Posix ok_uuid no_repr no_left false no_dec fx_class [] (Some Props_FormElem.ex_parent) src fx_uuid.
Definition fx_cycle (src : folder) : res (option folder) :=
  ' (_, _, own) <- fx_extract src ;; o <- form_encode Posix no_repr false no_enc fx_class None [] (Some Props_FormElem.ex_parent) own [] ;; Ok (match o with Some (out, _) => Some out | None => None end).
Definition fx_back (src : folder) (n : list N) : option (option tree) := match fx_cycle src with Ok (Some out) => Some (dget n out) | _ => None end.

(** An ordinary form whose <uuid>.0 is a plain file cannot be extracted (the code looks for it below itself). *)
Theorem C72_plain_file_refuted : exists e, fx_extract [(fx_uuid, TFile fx_oldb); (dotted fx_uuid t0, TFile fx_form27b)] = Err e.
Proof. eexists. vm_compute. reflexivity. Qed.
Print Assumptions C72_plain_file_refuted.
(** An ordinary form with <uuid>.1 but without <uuid>.0 comes back without <uuid>.1. *)
Theorem C72_second_alone_refuted : fx_back [(fx_uuid, TFile fx_oldb); (dotted fx_uuid t1, TFile fx_secondb)] (dotted fx_uuid t1) = Some None.
Proof. vm_compute. reflexivity. Qed.
Print Assumptions C72_second_alone_refuted.
(** A managed form without <uuid>.0 comes back with one. *)
Theorem C72_no_form_file_refuted : exists bs, fx_back [(fx_uuid, TFile fx_newb)] (dotted fx_uuid t0) = Some (Some (TFile bs)).
Proof. eexists. vm_compute. reflexivity. Qed.
Print Assumptions C72_no_form_file_refuted.
(** An ordinary form without a module file comes back with an empty one. *)
Theorem C72_no_module_refuted : exists fo, fx_back [(fx_uuid, TFile fx_oldb); (dotted fx_uuid t0, TDir [(s_form, TFile fx_form27b)])] (dotted fx_uuid t0) = Some (Some (TDir fo)) /\ dget s_module fo = Some (TFile []).
Proof. eexists. split; vm_compute; reflexivity. Qed.
Print Assumptions C72_no_module_refuted.
(** A module of a managed form that begins with U+FEFF comes back without it. *)
Theorem C72_module_mark_refuted : let t := u "Перем А;"%string in
  fx_back [(fx_uuid, TFile fx_newb); (dotted fx_uuid t0, TFile (fx_formb (65279 :: t)))] (dotted fx_uuid t0) = Some (Some (TFile (fx_formb t))) /\ fx_formb (65279 :: t) <> fx_formb t.
Proof. cbv zeta. split; [vm_compute; reflexivity|]. vm_compute. discriminate. Qed.
Print Assumptions C72_module_mark_refuted.
(** An ordinary form whose module is no text is extracted, but it cannot be built. *)
Theorem C72_binary_module_refuted : exists own e, let src := [(fx_uuid, TFile fx_oldb); (dotted fx_uuid t0, TDir [(s_form, TFile fx_form27b); (s_module, TFile [255; 152])])] in
  fx_extract src = Ok (fx_uuid, fx_prefix ++ fx_name, own) /\ fx_cycle src = Err e.
Proof. do 2 eexists. cbv zeta. split; vm_compute; reflexivity. Qed.
Print Assumptions C72_binary_module_refuted.
(** An ordinary form of version 26 or 27 whose elements cannot be read is extracted, but it cannot be built. *)
Definition fx_badb : list N := Eval vm_compute in snd (brace_file_write Posix [VList [VStr (u "27"); VList [VStr (u "0")]]]%string []).
Theorem C72_unread_elements_refuted : exists own e, let src := [(fx_uuid, TFile fx_oldb); (dotted fx_uuid t0, TDir [(s_form, TFile fx_badb); (s_module, TFile fx_omod)])] in
  fx_extract src = Ok (fx_uuid, fx_prefix ++ fx_name, own) /\ fx_cycle src = Err e.
Proof. do 2 eexists. cbv zeta. split; vm_compute; reflexivity. Qed.
Print Assumptions C72_unread_elements_refuted.
