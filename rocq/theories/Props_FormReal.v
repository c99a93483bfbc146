(** C74-C76: containers with forms.
    Model: FormReal.v (Form.v among the classes of Real.v, Tree.v, EncodeLoop.v, Root.v); specification: Spec_FormReal.v. *)
From Coq Require Import String Permutation Lia.
From Verif Require Import PyBase PyInt PyText Utf Cp1251 Codecs Brace Spec_Brace JsonText JsonTextProofs JsonObj Header Spec_Misc Pipeline Spec_Stage ObjCode Spec_Obj Payload
  Spec_Payload UpdateDictProofs MetaObj Spec_MetaObj MetaObjBase MetaObjPart MetaObjGood MetaObjMain ClassesProofs EncodeLoop Spec_Encode EncodeLoopMain Types Include Spec_Include IncludeMain Tree Spec_Tree Spec_Again TreeProofs TreeBuild Real Spec_Real RealProofs RealMain RealFiles
  Props_Tree CanonCheck Root Spec_Root RootCore RootLists RootTree RootSteps RootDetect RootVersions RootOpts RootConfig RootProc RootExt RootMain RootWhole Props_Root
  FormElem Spec_FormElem Form Spec_FormObj FormObjElem FormReal Spec_FormReal FormRealProofs RealSame FormCont Classes MetaObj.
From Verif Require Props_Misc Props_Stage Props_Obj Props_Payload Props_FormObj Props_FormElem.
Open Scope list_scope.
Open Scope N_scope.

(** ** C74: objects with their forms *)
(** Objects of any classes, forms among them, at any depth: extraction makes a source folder for each, and a build from these
    folders gives back each of their container files as it was. *)
Theorem C74_tree_with_forms_restored : forall os alnum valid lower repr left auto old_dec old_enc cont version (src : folder) xs,
  (forall v, Forall scalar (concat (leaves v)) -> Forall scalar (repr v)) ->
  Forall scalar version -> (forall x, In x xs -> in_place os alnum valid lower left auto old_dec old_enc cont version src x /\ it_inner x = false) -> different lower xs ->
  forall xsched xfuel, schedule xsched -> (it_heights xs <= xfuel)%nat ->
  exists ss, xloop (real_dec os alnum valid auto version src (forms_dec os valid repr left auto old_dec cont src)) xfuel 0 xsched [] (map (fun x => mkxtask (it_type x) (it_uuid x) []) xs) = Ok ss /\
    Permutation (map fst ss) (flat_map it_folders xs) /\ NoDup (map fst ss) /\
    forall root bsched bfuel folders, reads_again auto ss folders -> schedule bsched -> (2 * it_heights xs <= bfuel)%nat ->
    exists idx files, encode_tree (real_enc os alnum lower version (forms_enc os repr auto old_enc cont)) bfuel bsched root folders = Ok (idx, files) /\
      Permutation (map fst files) (flat_map (it_files src) (flat_map below xs)) /\
      Forall (fun e : written => same_entry (dget (fst e) src) (snd e)) files /\
      (NoDup (map it_uuid (flat_map below xs)) -> (forall x, In x (flat_map below xs) -> ~ In 46 (it_uuid x)) -> NoDup (map fst files)) /\
      (forall t, Permutation (match idx with Some d => of_type d t | None => [] end) (it_entries t xs)).
Proof.
  intros os alnum valid lower repr left auto old_dec old_enc cont version src xs Hr Hver Hpl Hdf. apply C60_tree_restored with (auto := auto); [exact Hver| |exact Hdf|apply (forms_by_name os lower)].
  intros x Hx. destruct (Hpl x Hx) as [H1 H2]. split; [apply in_place_placed; assumption|exact H2].
Qed.
Print Assumptions C74_tree_with_forms_restored.

(** ** C75: whole containers *)
Theorem C75_configuration_with_forms_restored : forall os alnum valid lower repr left auto old_dec old_enc cont (fresh : nat -> list N) (src : folder) version fu uuid name locs comment data hdr rt ver xs,
  (forall v, Forall scalar (concat (leaves v)) -> Forall scalar (repr v)) ->
  config_at os alnum valid auto src version fu uuid name locs comment data hdr rt ver xs ->
  (forall x, In x xs -> in_place os alnum valid lower left auto old_dec old_enc cont version src x) -> different lower xs -> (forall n, identifier (fresh n)) ->
  forall xsched xfuel, schedule xsched -> (it_heights xs <= xfuel)%nat ->
  exists own ss, extract_tree os alnum valid auto (forms_dec os valid repr left auto old_dec cont) xfuel xsched src = Ok (own, ss) /\ Permutation (map fst ss) (flat_map it_folders xs) /\ NoDup (map fst ss) /\
    forall srcs folders o bsched bfuel, root_sources RConfig name own srcs -> reads_again auto ss folders -> schedule bsched -> (2 * it_heights xs <= bfuel)%nat -> o_version o = None ->
      let expected := f_versions :: root_own RConfig fu uuid src ++ flat_map (it_files src) (flat_map below xs) in few expected ->
      exists files, build_tree os alnum lower auto fresh (forms_enc os repr auto old_enc cont) o bfuel bsched srcs folders = Ok files /\
        Permutation (map fst files) expected /\ (own_names fu uuid (flat_map below xs) -> NoDup (map fst files)) /\ (forall n e, In (n, e) files -> n <> f_versions -> same_entry (dget n src) e) /\
        exists e, In (f_versions, e) files /\ versions_in os (map fst files) e.
Proof.
  intros os alnum valid lower repr left auto old_dec old_enc cont fresh src version fu uuid name locs comment data hdr rt ver xs Hr Hat Hpl Hdf Hfr.
  eapply C61_configuration_restored; [exact Hat| |exact Hdf|apply (forms_by_name os lower)|exact Hfr]. intros x Hx. apply in_place_placed; [exact Hr|]. apply Hpl. exact Hx.
Qed.
Print Assumptions C75_configuration_with_forms_restored.
Theorem C75_processor_with_forms_restored : forall os alnum valid lower repr left auto old_dec old_enc cont (fresh : nat -> list N) (src : folder) version fu uuid name locs comment data hdr ver copy xs,
  (forall v, Forall scalar (concat (leaves v)) -> Forall scalar (repr v)) ->
  proc_at os alnum valid auto src version fu uuid name locs comment data hdr ver copy xs ->
  (forall x, In x xs -> in_place os alnum valid lower left auto old_dec old_enc cont version src x) -> different lower xs -> (forall n, identifier (fresh n)) ->
  forall xsched xfuel, schedule xsched -> (it_heights xs <= xfuel)%nat ->
  exists own ss, extract_tree os alnum valid auto (forms_dec os valid repr left auto old_dec cont) xfuel xsched src = Ok (own, ss) /\ Permutation (map fst ss) (flat_map it_folders xs) /\ NoDup (map fst ss) /\
    forall srcs folders o bsched bfuel, root_sources RProc name own srcs -> reads_again auto ss folders -> schedule bsched -> (2 * it_heights xs <= bfuel)%nat -> keeps_comment o comment ->
      let expected := f_versions :: root_own RProc fu uuid src ++ flat_map (it_files src) (flat_map below xs) in few expected ->
      exists files, build_tree os alnum lower auto fresh (forms_enc os repr auto old_enc cont) o bfuel bsched srcs folders = Ok files /\
        Permutation (map fst files) expected /\ (own_names fu uuid (flat_map below xs) -> NoDup (map fst files)) /\ (forall n e, In (n, e) files -> n <> f_versions -> same_entry (dget n src) e) /\
        exists e, In (f_versions, e) files /\ versions_in os (map fst files) e.
Proof.
  intros os alnum valid lower repr left auto old_dec old_enc cont fresh src version fu uuid name locs comment data hdr ver copy xs Hr Hat Hpl Hdf Hfr.
  eapply C62_processor_restored; [exact Hat| |exact Hdf|apply (forms_by_name os lower)|exact Hfr]. intros x Hx. apply in_place_placed; [exact Hr|]. apply Hpl. exact Hx.
Qed.
Print Assumptions C75_processor_with_forms_restored.
Theorem C75_extension_with_forms_restored : forall os alnum valid lower repr left auto old_dec old_enc cont (fresh : nat -> list N) (src : folder) version fu uuid name locs comment data hdr v copy rest product xs,
  (forall v, Forall scalar (concat (leaves v)) -> Forall scalar (repr v)) ->
  ext_at os alnum valid auto src version fu uuid name locs comment data hdr v copy rest product xs ->
  (forall x, In x xs -> in_place os alnum valid lower left auto old_dec old_enc cont version src x) -> different lower xs -> ~ In 13 product ->
  forall xsched xfuel, schedule xsched -> (it_heights xs <= xfuel)%nat ->
  exists own ss, extract_tree os alnum valid auto (forms_dec os valid repr left auto old_dec cont) xfuel xsched src = Ok (own, ss) /\ Permutation (map fst ss) (flat_map it_folders xs) /\ NoDup (map fst ss) /\ txt_read own f_version_bin e_utf8 = Ok product /\
    forall srcs folders o bsched bfuel, root_sources RExt name own srcs -> reads_again auto ss folders -> schedule bsched -> (2 * it_heights xs <= bfuel)%nat -> o_version o = None -> o_prefix o = None -> o_product o = [] -> o_product_version o = product -> keeps_comment o comment ->
      exists files, build_tree os alnum lower auto fresh (forms_enc os repr auto old_enc cont) o bfuel bsched srcs folders = Ok files /\
        Permutation (map fst files) (root_own RExt fu uuid src ++ flat_map (it_files src) (flat_map below xs)) /\ (own_names fu uuid (flat_map below xs) -> NoDup (map fst files)) /\ (forall n e, In (n, e) files -> n <> f_configinfo -> same_entry (dget n src) e) /\
        exists bs, In (f_configinfo, Some (TFile bs)) files /\ brace_bytes os (new_info v copy) bs.
Proof.
  intros os alnum valid lower repr left auto old_dec old_enc cont fresh src version fu uuid name locs comment data hdr v copy rest product xs Hr Hat Hpl Hdf Hp.
  eapply C63_extension_restored; [exact Hat| |exact Hdf|apply (forms_by_name os lower)|exact Hp]. intros x Hx. apply in_place_placed; [exact Hr|]. apply Hpl. exact Hx.
Qed.
Print Assumptions C75_extension_with_forms_restored.

(** ** C76: what forms are told about their parent *)
(** The identifier that a catalog, a document or a processor gives to its forms stands in its header tree; a build reads
    the same identifier in the extracted sources (for processors it is put back from the file of identifiers first). *)
Theorem C76_parent_of_forms : forall os alnum valid lower repr left auto old_dec old_enc cont version (src : folder) c uuid name data xs,
  (forall v, Forall scalar (concat (leaves v)) -> Forall scalar (repr v)) -> Forall scalar version ->
  in_place os alnum valid lower left auto old_dec old_enc cont version src (Item c uuid name false data xs) -> In c container_classes -> In (c_name c) (map u ["Catalog"; "Document"; "DataProcessor"]%string) ->
  container_given (c_name c) (VList data) = vat [0; 1; 1]%nat (VList data) /\
  exists own ks, real_dec os alnum valid auto version src (forms_dec os valid repr left auto old_dec cont src) (c_name c) uuid = Ok (name, own, ks) /\
    container_read c version own = vat [0; 1; 1]%nat (VList data).
Proof.
  intros os alnum valid lower repr left auto old_dec old_enc cont version src c uuid name data xs Hr Hver Hp Hc Hn.
  assert (Hn2 : In (c_name c) form_containers) by (revert Hn; vm_compute; tauto). split.
  { unfold container_given. assert (existsb (str_eqb (c_name c)) form_containers = true) as -> by (apply existsb_exists; exists (c_name c); split; [exact Hn2|apply str_eqb_refl]). reflexivity. }
  eapply container_same; [exact Hver|apply in_place_placed; [exact Hr|exact Hp]|exact Hc|exact Hn2].
Qed.
Print Assumptions C76_parent_of_forms.

(** ** Examples *)
(** a catalog with a managed form that uses the identifier of its parent *)
Definition k_uuid : list N := Eval vm_compute in u "b2f1c8a0-1111-2222-3333-444455556671"%string.
Definition k_name : list N := Eval vm_compute in u "Товары"%string.
Definition k_class : class := Eval vm_compute in match find (fun c => str_eqb (u "Catalog"%string) (c_name c)) classes with Some c => c | None => data_processor end.
Definition k_fname : list N := Eval vm_compute in Props_FormObj.fx_prefix ++ Props_FormObj.fx_name.
Definition k_b : val := Eval vm_compute in VList ([z_; VStr Props_FormElem.ex_parent] ++ repeat z_ 7 ++ [VList [z_; VList (x_hdr k_uuid k_name)]]).
Definition k_gs : list group := Eval vm_compute in [x_fields; mkgroup (x_type "CatalogForm") [49] [VStr Props_FormObj.fx_uuid] []].
Definition k_data : list val := Eval vm_compute in [list_val (VStr [49]) k_b [50] k_gs []].
Definition k_src : folder := Props_FormObj.fx_src ++ [(k_uuid, bfile k_data)].
Definition k_form : item := Item (class_of_form Props_FormObj.fx_class) Props_FormObj.fx_uuid k_fname false Props_FormObj.fx_new [].
Definition k_items : list item := [Item k_class k_uuid k_name false k_data [k_form]].
Definition k_cont (uuid : list N) : option (list N) := Some Props_FormElem.ex_parent.
Lemma k_form_at left auto old_dec old_enc c (src : folder) : (f_root c = RForm1 \/ f_root c = RForm) -> (forall n, In n (dkeys Props_FormObj.fx_src) -> dget n src = dget n Props_FormObj.fx_src) ->
  form_at left (Some Props_FormElem.ex_parent) auto old_dec old_enc Posix src c Props_FormObj.fx_uuid k_fname Props_FormObj.fx_locs (u "note"%string) Props_FormObj.fx_new Props_FormObj.fx_hdr.
Proof.
  intros Hc Hs. exists (u "1"%string). split.
  - constructor.
    + exists Props_FormObj.fx_newb. split; [rewrite Hs by (vm_compute; tauto); reflexivity|]. brace_solve.
    + exists [0; 1]%nat. eexists. split; [destruct Hc as [-> | ->]; [constructor|apply si_old; reflexivity]|]. split; [reflexivity|]. split; [constructor|]. split; [|reflexivity]. eexists. split; [reflexivity|]. vm_compute. tauto.
    + do 6 eexists. vm_compute. reflexivity.
    + apply nodup_strs. reflexivity.
  - eapply ff_managed; [rewrite Hs by (vm_compute; tauto); reflexivity| |apply Props_FormObj.fx_managed|]; [brace_solve|]. right. exists Props_FormObj.fx_secondb, Props_FormObj.fx_second. split; [rewrite Hs by (vm_compute; tauto); reflexivity|]. brace_solve.
Qed.
Example C74_hypotheses_met : forall alnum left auto old_dec old_enc,
  (forall x, In x k_items -> in_place Posix alnum (fun _ => true) (fun s => s) left auto old_dec old_enc k_cont s_803 k_src x /\ it_inner x = false) /\ different (fun s => s) k_items /\
  NoDup (map it_uuid (flat_map below k_items)) /\ flat_map (it_files k_src) (flat_map below k_items) = [k_uuid; Props_FormObj.fx_uuid; dotted Props_FormObj.fx_uuid [48]; dotted Props_FormObj.fx_uuid [49]] /\
  vat [0; 1; 1]%nat (VList k_data) = Ok (VStr Props_FormElem.ex_parent).
Proof.
  intros alnum left auto old_dec old_enc. split; [|split; [|split; [|split]]].
  - intros x [<-|[]]. split; [|reflexivity].
    eapply in_container with (gs := k_gs) (b := k_b) (locs := [(u "ru"%string, k_name)]) (comment := u "note"%string) (hdr := x_hdr k_uuid k_name).
    + vm_compute. tauto.
    + apply x_named; [reflexivity|discriminate].
    + constructor; [reflexivity|reflexivity|unfold x_hdr; do 6 eexists; reflexivity|apply nodup_strs; reflexivity| |].
      * intros p [<-|[<-|[]]]; cbn [entry_ok part_num]; [exists None; constructor|left; reflexivity].
      * intros m n [E|[E|[]]]; assert (n = [51] \/ n = [48]) as [-> | ->] by (first [left; congruence|right; congruence]); exact I.
    + eexists. split; [reflexivity|brace_solve].
    + reflexivity.
    + split; [reflexivity|repeat constructor].
    + apply nodup_strs. reflexivity.
    + left. reflexivity.
    + apply ls_unknown; [reflexivity|].
      apply (@ls_objects Posix alnum (fun _ => true) auto k_src _ (u "CatalogForm"%string) [k_form] [] []); [reflexivity|discriminate|repeat constructor|reflexivity|intros _; split; [repeat constructor|split; reflexivity]|constructor].
    + apply x_different; apply nodup_strs; reflexivity.
    + intros x [<-|[]]. eapply in_form with (locs := Props_FormObj.fx_locs).
      * exists "CatalogForm"%string. split; [cbn; tauto|reflexivity].
      * apply x_named; [reflexivity|discriminate].
      * apply k_form_at; [left; reflexivity|]. intros n Hn. repeat (destruct Hn as [<-|Hn]; [reflexivity|]). destruct Hn.
  - apply x_different; apply nodup_strs; reflexivity.
  - apply nodup_strs. reflexivity.
  - vm_compute. reflexivity.
  - reflexivity.
Qed.
(** an external report with a managed form *)
Definition k_pinc : inc := Eval vm_compute in mkinc (VStr [49]) (VList y_pprops) [49] [mkgroup (x_type "Form") [49] [VStr Props_FormObj.fx_uuid] []] [].
Definition k_pdata : list val := Eval vm_compute in proc_tree z_ z_ z_ (VStr (x_type "ExternalReport")) k_pinc [] [] [].
Definition k_pclass : fclass := Eval vm_compute in mkfclass (u "Form"%string) RForm.
Definition k_pitems : list item := [Item (class_of_form k_pclass) Props_FormObj.fx_uuid k_fname false Props_FormObj.fx_new []].
Definition k_psrc : folder := [(Root.f_root, bfile y_root); (f_version, bfile y_ver); (f_versions, bfile y_versions); (f_copyinfo, bfile y_root); (y_fu, bfile k_pdata);
  (dotted y_uuid [48], TDir [(s_info, TFile Props_Stage.ex_brace); (s_text, TFile Props_Obj.om_mod1)])] ++ Props_FormObj.fx_src.
Example C75_hypotheses_met : forall alnum left auto old_dec old_enc,
  proc_at Posix alnum (fun _ => true) auto k_psrc s_803 y_fu y_uuid y_name [(u "ru"%string, y_name)] y_note k_pdata (x_hdr y_uuid y_name) y_ver y_root k_pitems /\
  (forall x, In x k_pitems -> in_place Posix alnum (fun _ => true) (fun s => s) left auto old_dec old_enc k_cont s_803 k_psrc x) /\ different (fun s => s) k_pitems /\
  own_names y_fu y_uuid (flat_map below k_pitems) /\ few (f_versions :: root_own RProc y_fu y_uuid k_psrc ++ flat_map (it_files k_psrc) (flat_map below k_pitems)) /\
  length (root_own RProc y_fu y_uuid k_psrc ++ flat_map (it_files k_psrc) (flat_map below k_pitems)) = 8%nat.
Proof.
  intros alnum left auto old_dec old_enc. split; [|split; [|split; [|split; [|split]]]].
  - constructor.
    + eapply y_file; [reflexivity|brace_solve].
    + eapply y_file; [reflexivity|brace_solve].
    + eapply y_file; [reflexivity|brace_solve].
    + intros bs. discriminate.
    + y_root_at.
    + exists z_, z_, z_, (VStr (x_type "ExternalReport")), k_pinc, [], [], [].
      split; [reflexivity|]. split; [split; [reflexivity|repeat constructor]|]. split.
      * split; [|split; [apply nodup_strs; reflexivity|intros x [<-|[]]; reflexivity]].
        apply (@ls_objects Posix alnum (fun _ => true) auto k_psrc _ (u "Form"%string) k_pitems [] []); [reflexivity|discriminate|repeat constructor|reflexivity|intros _; split; [repeat constructor|split; reflexivity]|constructor].
      * left. split; [|right; reflexivity]. apply (@vf_three (u "216"%string) 216 z_ (u "80315"%string) [z_] [] []); [reflexivity|lia|apply Nat.leb_le; reflexivity].
  - intros x [<-|[]]. eapply in_form with (locs := Props_FormObj.fx_locs).
    + exists "Form"%string. split; [cbn; tauto|reflexivity].
    + apply x_named; [reflexivity|discriminate].
    + apply k_form_at; [right; reflexivity|]. intros n Hn. repeat (destruct Hn as [<-|Hn]; [reflexivity|]). destruct Hn.
  - apply x_different; apply nodup_strs; reflexivity.
  - split; [apply nodup_strs; reflexivity|]. split; [apply not_key; reflexivity|]. intros w Hw. repeat (destruct Hw as [<-|Hw]; [split; [apply nodotb; reflexivity|apply not_key; reflexivity]|]). destruct Hw.
  - split; [apply y_fits; vm_compute; reflexivity|reflexivity].
  - vm_compute. reflexivity.
Qed.
