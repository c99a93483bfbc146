(** C90: the whole way.  The bytes of a file, its objects, their sources on the disk with the include areas in files of their own,
    and back to the bytes.  Model: Whole.v, OrgTree.v; specification: Spec_EndToEnd.v, Spec_Whole.v, Spec_OrgTree.v. *)
From Coq Require Import String Permutation Lia.
From Verif Require Import PyBase PyInt PyText Utf Cp1251 Codecs Brace Spec_Brace JsonText JsonTextProofs JsonObj Header Spec_Misc Container Spec_Container Pipeline Spec_Pipeline PipelineProofs PipelineMore PipelineItems Spec_Stage ObjCode Spec_Obj Payload
  Spec_Payload UpdateDictProofs MetaObj Spec_MetaObj MetaObjBase MetaObjPart MetaObjGood MetaObjMain ClassesProofs EncodeLoop Spec_Encode EncodeLoopMain Types Include Spec_Include IncludeMain Tree Spec_Tree Spec_Again TreeProofs TreeBuild Real Spec_Real RealProofs RealMain RealFiles
  Props_Tree CanonCheck Root Spec_Root RootCore RootLists RootTree RootSteps RootDetect RootVersions RootOpts RootConfig RootProc RootExt RootMain RootWhole Props_Root
  FormElem Spec_FormElem Form Spec_FormObj FormObjElem FormReal Spec_FormReal FormRealProofs FormCont Classes MetaObj Props_Pipeline Whole Spec_Whole WholeProofs WholeMain WholeInfo Props_FormReal Props_Whole
  OrgTree Spec_OrgForm Spec_Code Spec_OrgTree OrgTreePaths OrgTreeProofs OrgTreeElems Props_OrgTree Spec_EndToEnd EndSplit EndToEnd EndRoot EndFolders RealSame RootSame OrgTreeCase EndCase EndCaseOrg.
Import Container Classes MetaObj Pipeline Spec_Pipeline Spec_Real Tree Real Root.
Open Scope list_scope.
Open Scope N_scope.

(** what was decoded *)
Lemma decoded_root os alnum valid auto other_dec inf (bytes : list N) n fuel depth sched order (src : folder) xfuel xsched own ss k version :
  Pipeline.unpack inf n fuel depth sched bytes = Ok [src] -> listing_order order ->
  extract_file os alnum valid auto other_dec inf n fuel depth sched order xfuel xsched bytes = Ok (own, ss, None) -> detect src = Ok (k, version) ->
  exists ks, root_decode os alnum valid auto k [] version src = Ok (own, ks).
Proof.
  intros Hu Hord H Hd. unfold extract_file in H. rewrite Hu in H. cbn [bind] in H. rewrite (single_choose order src Hord) in H. cbn [bind] in H. unfold extract_tree in H. rewrite Hd in H. cbn [bind] in H.
  destruct (root_decode os alnum valid auto k [] version src) as [[own0 ks]|]; [|discriminate]. cbn [bind] in H. destruct (put_sources _ _); [|discriminate]. cbn [bind] in H. destruct (xloop _ _ _ _ _ _); [|discriminate]. injection H as <- _.
  exists ks. reflexivity.
Qed.
Section Detected.
Variables (os : platform) (alnum : N -> bool) (valid : list N -> bool) (lower : list N -> list N) (repr : val -> list N) (left : ekind -> val -> jval) (auto : bool).
Variables (old_dec : nat -> val -> res (val * jval)) (old_enc : nat -> jval -> val -> res val) (cont : list N -> option (list N)) (src : folder).
Hypothesis Hr : forall v, Forall scalar (concat (leaves v)) -> Forall scalar (repr v).
Lemma config_detected version fu uuid name locs comment data hdr rt ver xs : config_at os alnum valid auto src version fu uuid name locs comment data hdr rt ver xs ->
  (forall x, In x xs -> in_place os alnum valid lower left auto old_dec old_enc cont version src x) -> different lower xs -> (exists id, identifier id) -> detect src = Ok (RConfig, version).
Proof.
  intros Hat Hpl Hdf [id Hid].
  assert (Sv : Forall scalar version). { destruct Hat as [_ (Vf & Vv) _ _ _ _]. destruct (read_in _ _ _ _ Vf) as (_ & _ & Vsc). exact (version_scal _ _ Vv Vsc). }
  destruct (all_made os alnum valid lower auto src (forms_dec os valid repr left auto old_dec cont src) (forms_enc os repr auto old_enc cont) version xs Sv) as (os' & Hm); [intros x Hx; apply in_place_placed; [exact Hr|exact (Hpl x Hx)]|].
  exact (proj1 (proj2 (config_back os alnum valid lower auto src (fun _ => id) (fun _ => Hid) _ _ _ _ _ _ _ _ _ _ xs os' Hat Hm Hdf))).
Qed.
Lemma proc_detected version fu uuid name locs comment data hdr ver copy xs : proc_at os alnum valid auto src version fu uuid name locs comment data hdr ver copy xs ->
  (forall x, In x xs -> in_place os alnum valid lower left auto old_dec old_enc cont version src x) -> different lower xs -> (exists id, identifier id) -> detect src = Ok (RProc, version).
Proof.
  intros Hat Hpl Hdf [id Hid]. assert (Sv : Forall scalar version).
  { destruct Hat as [_ Vf _ _ _ (x0 & x1 & x2 & ty & i & t3 & t0 & rest & _ & _ & _ & [[Vv _]|[_ ->]])]; [|scalars]. destruct (read_in _ _ _ _ Vf) as (_ & _ & Vsc). exact (version_scal _ _ Vv Vsc). }
  destruct (all_made os alnum valid lower auto src (forms_dec os valid repr left auto old_dec cont src) (forms_enc os repr auto old_enc cont) version xs Sv) as (os' & Hm); [intros x Hx; apply in_place_placed; [exact Hr|exact (Hpl x Hx)]|].
  exact (proj1 (proj2 (proc_back os alnum valid lower auto src (fun _ => id) (fun _ => Hid) _ _ _ _ _ _ _ _ _ _ xs os' Hat Hm Hdf))).
Qed.
Lemma ext_detected version fu uuid name locs comment data hdr v copy more product xs : ext_at os alnum valid auto src version fu uuid name locs comment data hdr v copy more product xs -> ~ In 13 product ->
  (forall x, In x xs -> in_place os alnum valid lower left auto old_dec old_enc cont version src x) -> different lower xs -> detect src = Ok (RExt, version).
Proof.
  intros Hat Hcr Hpl Hdf. assert (Sv : Forall scalar version).
  { destruct Hat as [(If & _) _ (s & n & x & w & -> & _) _ _]. destruct (read_in _ _ _ _ If) as (_ & _ & Is). rewrite !scal_cons in Is. apply scal_str. tauto. }
  destruct (all_made os alnum valid lower auto src (forms_dec os valid repr left auto old_dec cont src) (forms_enc os repr auto old_enc cont) version xs Sv) as (os' & Hm); [intros x Hx; apply in_place_placed; [exact Hr|exact (Hpl x Hx)]|].
  exact (proj1 (proj2 (ext_back os alnum valid lower auto src (fun _ => []) _ _ _ _ _ _ _ _ _ _ _ _ xs os' Hat Hcr Hm Hdf))).
Qed.
End Detected.

(** the folders that a build finds after the assembly *)
Lemma assembled_again os alnum valid auto k (prefix version : list N) (csrc : folder) own ks ss xs table depth ordc orde ordl ordw dest dest2 src st st' :
  root_decode os alnum valid auto k prefix version csrc = Ok (own, ks) -> Permutation (map fst ss) (flat_map it_folders xs) -> NoDup (map fst ss) ->
  laid_out own ss src -> plain_folders auto ss -> NoDup (map fst st) -> reorders ordc -> reorders orde -> reorders ordl -> reorders ordw ->
  splittable os table depth dest dest2 src st' -> organize os table depth ordc orde dest src st = Ok st' ->
  exists sf, assemble os table depth ordl ordw dest dest2 st' = Ok sf /\
  forall name srcs ss' folders, files_in (enter [] dest2) sf [] srcs -> object_folders (enter [] dest2) sf ss' -> reads_all real_lists real_rd ss' folders ->
    same_files (c_name (root_class k)) own srcs /\ root_sources k name own own /\ (k <> RExt -> dget f_version_bin own = None) /\ reads_again auto ss folders.
Proof.
  intros Hd Hp Hnd Hlay Hpl Hst Hoc Hoe Hol How (S1 & S2 & S3 & S4 & S5) Ho.
  destruct (@C81_sources_restored os table depth ordc orde ordl ordw dest dest2 src st st' (proj1 Hlay) Hst Hoc Hoe Hol How S1 S2 S3 S4 S5 Ho) as (sf & A & B & Cc & _).
  exists sf. split; [exact A|]. intros name srcs ss' folders Hf Hof Hrd.
  assert (Hne : forall q fo, In (q, fo) ss -> q <> []).
  { intros q fo Hq. apply (@in_fst _ _ ss) in Hq. apply (Permutation_in _ Hp) in Hq. apply in_flat_map in Hq. destruct Hq as (x & _ & Hq). eapply it_folders_nonempty; exact Hq. }
  assert (Hcl : forall a r, a <> [] -> In (a ++ r) (map fst ss) -> In a (map fst ss)).
  { intros a r Ha H. apply (Permutation_in _ Hp) in H. apply (Permutation_in _ (Permutation_sym Hp)). eapply folders_closed; eassumption. }
  assert (Hdocs : forall p n b, found src p n b -> elements_name n -> exists d, json_file b (Jobj d) /\ NoDup (map fst d) /\ distinct_data (Jobj d)).
  { intros p n b F E. destruct (S2 p n b F E) as (d & tr & trw & data & places & G & _). destruct G as (G1 & _ & G3 & G4 & _ & _ & _ & _ & G9 & _). exists d. split; [exact G1|]. split; [exact G3|].
    intros d0 x E0 Hx. injection E0 as <-. destruct G4 as [_ G4]. rewrite G4 in Hx. injection Hx as <-. exact G9. }
  pose proof (root_files_of _ _ _ _ _ _ _ _ _ _ Hd) as Hro.
  split; [exact (@read_root own ss src dest2 sf Hlay Hne B Cc (c_name (root_class k)) srcs Hf (root_elements _ _ Hro) (root_marks _ _ Hro))|].
  split; [split|split].
  - intros n _. reflexivity.
  - intros n H1 H2. exact (root_other _ _ _ Hro H1 H2).
  - intros Hk. exact (root_no_bin _ _ Hro Hk).
  - exists ss'. split; [|exact Hrd]. exact (@folders_again auto own ss src dest2 sf Hlay Hpl Hnd Hne Hcl Hdocs B Cc ss' Hof).
Qed.

Theorem C90_configuration_rebuilt : forall os alnum valid lower repr left auto old_dec old_enc cont (fresh : nat -> list N) deflate digest inf
    (bytes : list N) n fuel depth sched order (src : folder) version fu uuid name locs comment data hdr rt ver xs,
  (forall v, Forall scalar (concat (leaves v)) -> Forall scalar (repr v)) -> (forall d, restores_promptly inf (deflate d) d) ->
  Pipeline.unpack inf n fuel depth sched bytes = Ok [src] -> listing_order order ->
  config_at os alnum valid auto src version fu uuid name locs comment data hdr rt ver xs ->
  (forall x, In x xs -> in_place os alnum valid lower left auto old_dec old_enc cont version src x) -> different lower xs -> (forall k, identifier (fresh k)) -> own_names fu uuid (flat_map below xs) ->
  let rest := root_own RConfig fu uuid src ++ flat_map (it_files src) (flat_map below xs) in
  few (f_versions :: rest) -> packable_names src rest ->
  forall xsched xfuel, schedule xsched -> (it_heights xs <= xfuel)%nat ->
  exists own ss, extract_file os alnum valid auto (forms_dec os valid repr left auto old_dec cont) inf n fuel depth sched order xfuel xsched bytes = Ok (own, ss, None) /\
    forall tree table k ordc orde ordl ordw dest dest2 st st',
      laid_out own ss tree -> plain_folders auto ss -> NoDup (map fst st) -> reorders ordc -> reorders orde -> reorders ordl -> reorders ordw -> splittable os table k dest dest2 tree st' ->
      organize os table k ordc orde dest tree st = Ok st' ->
      exists sf, assemble os table k ordl ordw dest dest2 st' = Ok sf /\
      forall srcs ss' folders o bsched bfuel order' time stamp,
        files_in (enter [] dest2) sf [] srcs -> object_folders (enter [] dest2) sf ss' -> reads_all real_lists real_rd ss' folders -> schedule bsched -> (2 * it_heights xs <= bfuel)%nat -> o_version o = None ->
        listing_order order' -> times_ok time -> stamps_ok stamp (f_versions :: rest) ->
        exists files, build_tree os alnum lower auto fresh (forms_enc os repr auto old_enc cont) o bfuel bsched srcs folders = Ok files /\
          ((packed_size deflate stamp time (on_disk files) < 2147483647)%Z ->
           exists bytes' M, build_file os alnum lower auto fresh (forms_enc os repr auto old_enc cont) deflate digest o bfuel bsched srcs folders None order' time stamp = Ok bytes' /\
             forall sched' n' fuel' depth', any_order sched' -> (2 <= n')%nat -> (M <= fuel')%nat ->
             exists src', Pipeline.unpack inf n' fuel' depth' sched' bytes' = Ok [src'] /\ same_folder [f_versions] (f_versions :: rest) src src' /\
               exists names, Permutation names (f_versions :: rest) /\ versions_in os names (dget f_versions src')).
Proof.
  intros os alnum valid lower repr left auto old_dec old_enc cont fresh deflate digest inf bytes n fuel depth sched order src version fu uuid name locs comment data hdr rt ver xs
    Hr Hinf Hu Hord Hat Hpl Hdf Hfr Hon rest Hfew Hpk xsched xfuel Hs Hf.
  destruct (@C83_configuration_file_restored os alnum valid lower repr left auto old_dec old_enc cont fresh deflate digest inf bytes n fuel depth sched order src version fu uuid name locs comment data hdr rt ver xs Hr Hinf Hu Hord Hat Hpl Hdf Hfr Hon Hfew Hpk xsched xfuel Hs Hf) as (own & ss & X1 & X2 & X3 & X4).
  exists own, ss. split; [exact X1|]. intros tree table k ordc orde ordl ordw dest dest2 st st' Hlay Hplain Hst Hoc Hoe Hol How Hsp Ho.
  pose proof (config_detected os alnum valid lower repr left auto old_dec old_enc cont src Hr version fu uuid name locs comment data hdr rt ver xs Hat Hpl Hdf (ex_intro _ _ (Hfr O))) as Hdet.
  destruct (decoded_root _ _ _ _ _ _ _ _ _ _ _ _ _ _ _ _ _ _ _ Hu Hord X1 Hdet) as (ks & Hd).
  destruct (@assembled_again os alnum valid auto RConfig [] version src own ks ss xs table k ordc orde ordl ordw dest dest2 tree st st' Hd X2 X3 Hlay Hplain Hst Hoc Hoe Hol How Hsp Ho) as (sf & A & K).
  exists sf. split; [exact A|]. intros srcs ss' folders o bsched bfuel order' time stamp Hf1 Hf2 Hf3. destruct (K name srcs ss' folders Hf1 Hf2 Hf3) as (K1 & K2 & K3 & K4).
  rewrite (build_tree_same _ _ _ K1), (build_file_same _ _ _ K1). exact (X4 own folders o bsched bfuel order' time stamp K2 (K3 ltac:(discriminate)) K4).
Qed.
Print Assumptions C90_configuration_rebuilt.
Theorem C90_processor_rebuilt : forall os alnum valid lower repr left auto old_dec old_enc cont (fresh : nat -> list N) deflate digest inf
    (bytes : list N) n fuel depth sched order (src : folder) version fu uuid name locs comment data hdr ver copy xs,
  (forall v, Forall scalar (concat (leaves v)) -> Forall scalar (repr v)) -> (forall d, restores_promptly inf (deflate d) d) ->
  Pipeline.unpack inf n fuel depth sched bytes = Ok [src] -> listing_order order ->
  proc_at os alnum valid auto src version fu uuid name locs comment data hdr ver copy xs ->
  (forall x, In x xs -> in_place os alnum valid lower left auto old_dec old_enc cont version src x) -> different lower xs -> (forall k, identifier (fresh k)) -> own_names fu uuid (flat_map below xs) ->
  let rest := root_own RProc fu uuid src ++ flat_map (it_files src) (flat_map below xs) in
  few (f_versions :: rest) -> packable_names src rest ->
  forall xsched xfuel, schedule xsched -> (it_heights xs <= xfuel)%nat ->
  exists own ss, extract_file os alnum valid auto (forms_dec os valid repr left auto old_dec cont) inf n fuel depth sched order xfuel xsched bytes = Ok (own, ss, None) /\
    forall tree table k ordc orde ordl ordw dest dest2 st st',
      laid_out own ss tree -> plain_folders auto ss -> NoDup (map fst st) -> reorders ordc -> reorders orde -> reorders ordl -> reorders ordw -> splittable os table k dest dest2 tree st' ->
      organize os table k ordc orde dest tree st = Ok st' ->
      exists sf, assemble os table k ordl ordw dest dest2 st' = Ok sf /\
      forall srcs ss' folders o bsched bfuel order' time stamp,
        files_in (enter [] dest2) sf [] srcs -> object_folders (enter [] dest2) sf ss' -> reads_all real_lists real_rd ss' folders -> schedule bsched -> (2 * it_heights xs <= bfuel)%nat -> keeps_comment o comment ->
        listing_order order' -> times_ok time -> stamps_ok stamp (f_versions :: rest) ->
        exists files, build_tree os alnum lower auto fresh (forms_enc os repr auto old_enc cont) o bfuel bsched srcs folders = Ok files /\
          ((packed_size deflate stamp time (on_disk files) < 2147483647)%Z ->
           exists bytes' M, build_file os alnum lower auto fresh (forms_enc os repr auto old_enc cont) deflate digest o bfuel bsched srcs folders None order' time stamp = Ok bytes' /\
             forall sched' n' fuel' depth', any_order sched' -> (2 <= n')%nat -> (M <= fuel')%nat ->
             exists src', Pipeline.unpack inf n' fuel' depth' sched' bytes' = Ok [src'] /\ same_folder [f_versions] (f_versions :: rest) src src' /\
               exists names, Permutation names (f_versions :: rest) /\ versions_in os names (dget f_versions src')).
Proof.
  intros os alnum valid lower repr left auto old_dec old_enc cont fresh deflate digest inf bytes n fuel depth sched order src version fu uuid name locs comment data hdr ver copy xs
    Hr Hinf Hu Hord Hat Hpl Hdf Hfr Hon rest Hfew Hpk xsched xfuel Hs Hf.
  destruct (@C83_processor_file_restored os alnum valid lower repr left auto old_dec old_enc cont fresh deflate digest inf bytes n fuel depth sched order src version fu uuid name locs comment data hdr ver copy xs Hr Hinf Hu Hord Hat Hpl Hdf Hfr Hon Hfew Hpk xsched xfuel Hs Hf) as (own & ss & X1 & X2 & X3 & X4).
  exists own, ss. split; [exact X1|]. intros tree table k ordc orde ordl ordw dest dest2 st st' Hlay Hplain Hst Hoc Hoe Hol How Hsp Ho.
  pose proof (proc_detected os alnum valid lower repr left auto old_dec old_enc cont src Hr version fu uuid name locs comment data hdr ver copy xs Hat Hpl Hdf (ex_intro _ _ (Hfr O))) as Hdet.
  destruct (decoded_root _ _ _ _ _ _ _ _ _ _ _ _ _ _ _ _ _ _ _ Hu Hord X1 Hdet) as (ks & Hd).
  destruct (@assembled_again os alnum valid auto RProc [] version src own ks ss xs table k ordc orde ordl ordw dest dest2 tree st st' Hd X2 X3 Hlay Hplain Hst Hoc Hoe Hol How Hsp Ho) as (sf & A & K).
  exists sf. split; [exact A|]. intros srcs ss' folders o bsched bfuel order' time stamp Hf1 Hf2 Hf3. destruct (K name srcs ss' folders Hf1 Hf2 Hf3) as (K1 & K2 & K3 & K4).
  rewrite (build_tree_same _ _ _ K1), (build_file_same _ _ _ K1). exact (X4 own folders o bsched bfuel order' time stamp K2 (K3 ltac:(discriminate)) K4).
Qed.
Print Assumptions C90_processor_rebuilt.
Theorem C90_extension_rebuilt : forall os alnum valid lower repr left auto old_dec old_enc cont (fresh : nat -> list N) deflate digest inf
    (bytes : list N) n fuel depth sched order (src : folder) version fu uuid name locs comment data hdr v copy more bs0 product xs,
  (forall v, Forall scalar (concat (leaves v)) -> Forall scalar (repr v)) -> (forall d, restores_promptly inf (deflate d) d) -> (forall d, sha1_text (digest d)) ->
  Pipeline.unpack inf n fuel depth sched bytes = Ok [src] -> listing_order order ->
  ext_at os alnum valid auto src version fu uuid name locs comment data hdr v copy more product xs -> ~ In 13 product ->
  dget f_configinfo src = Some (TFile bs0) -> unmarked os bs0 ->
  (forall x, In x xs -> in_place os alnum valid lower left auto old_dec old_enc cont version src x) -> different lower xs -> own_names fu uuid (flat_map below xs) ->
  let rest := fu :: Spec_MetaObj.here uuid src (numbers (root_class RExt)) ++ flat_map (it_files src) (flat_map below xs) in
  few rest -> packable_names src rest ->
  forall xsched xfuel, schedule xsched -> (it_heights xs <= xfuel)%nat ->
  exists own ss, extract_file os alnum valid auto (forms_dec os valid repr left auto old_dec cont) inf n fuel depth sched order xfuel xsched bytes = Ok (own, ss, None) /\
    forall tree table k ordc orde ordl ordw dest dest2 st st',
      laid_out own ss tree -> plain_folders auto ss -> NoDup (map fst st) -> reorders ordc -> reorders orde -> reorders ordl -> reorders ordw -> splittable os table k dest dest2 tree st' ->
      organize os table k ordc orde dest tree st = Ok st' ->
      exists sf, assemble os table k ordl ordw dest dest2 st' = Ok sf /\
      forall srcs ss' folders o bsched bfuel order' time stamp,
        files_in (enter [] dest2) sf [] srcs -> object_folders (enter [] dest2) sf ss' -> reads_all real_lists real_rd ss' folders -> schedule bsched -> (2 * it_heights xs <= bfuel)%nat ->
        o_version o = None -> o_prefix o = None -> o_product o = [] -> (o_file o = [] \/ product = [] \/ ~ exists a b, comment = a ++ ver_mark ++ b) ->
        listing_order order' -> times_ok time -> stamps_ok stamp (f_configinfo :: rest) ->
        exists files others new, build_tree os alnum lower auto fresh (forms_enc os repr auto old_enc cont) (mkropts None None [] product (o_file o)) bfuel bsched srcs folders = Ok files /\
          brace_bytes os [VList [VStr [48]; v]; copy; digest_list digest others] new /\
          ((packed_size deflate stamp time (dset f_configinfo (TFile new) (on_disk files)) < 2147483647)%Z ->
           exists bytes' M, build_file os alnum lower auto fresh (forms_enc os repr auto old_enc cont) deflate digest o bfuel bsched srcs folders None order' time stamp = Ok bytes' /\
             (forall n' fuel', (2 <= n')%nat -> (M <= fuel')%nat -> exists stored, extract_all n' fuel' bytes' = Ok [stored] /\ filter (fun e => negb (str_eqb (fst e) f_configinfo)) stored = others) /\
             forall sched' n' fuel' depth', any_order sched' -> (2 <= n')%nat -> (M <= fuel')%nat ->
             exists src', Pipeline.unpack inf n' fuel' depth' sched' bytes' = Ok [src'] /\ same_folder [f_configinfo] (f_configinfo :: rest) src src' /\ dget f_configinfo src' = Some (TFile new)).
Proof.
  intros os alnum valid lower repr left auto old_dec old_enc cont fresh deflate digest inf bytes n fuel depth sched order src version fu uuid name locs comment data hdr v copy more bs0 product xs
    Hr Hinf Hsha Hu Hord Hat Hcr Hd0 Hum Hpl Hdf Hon rest Hfew Hpk xsched xfuel Hs Hf.
  destruct (@C84_extension_file_restored os alnum valid lower repr left auto old_dec old_enc cont fresh deflate digest inf bytes n fuel depth sched order src version fu uuid name locs comment data hdr v copy more bs0 product xs Hr Hinf Hsha Hu Hord Hat Hcr Hd0 Hum Hpl Hdf Hon Hfew Hpk xsched xfuel Hs Hf) as (own & ss & X1 & X2 & X3 & X4).
  exists own, ss. split; [exact X1|]. intros tree table k ordc orde ordl ordw dest dest2 st st' Hlay Hplain Hst Hoc Hoe Hol How Hsp Ho.
  pose proof (ext_detected os alnum valid lower repr left auto old_dec old_enc cont src Hr version fu uuid name locs comment data hdr v copy more product xs Hat Hcr Hpl Hdf) as Hdet.
  destruct (decoded_root _ _ _ _ _ _ _ _ _ _ _ _ _ _ _ _ _ _ _ Hu Hord X1 Hdet) as (ks & Hd).
  destruct (@assembled_again os alnum valid auto RExt [] version src own ks ss xs table k ordc orde ordl ordw dest dest2 tree st st' Hd X2 X3 Hlay Hplain Hst Hoc Hoe Hol How Hsp Ho) as (sf & A & K).
  exists sf. split; [exact A|]. intros srcs ss' folders o bsched bfuel order' time stamp Hf1 Hf2 Hf3. destruct (K name srcs ss' folders Hf1 Hf2 Hf3) as (K1 & K2 & K3 & K4).
  rewrite (build_tree_same _ _ _ K1), (build_file_same _ _ _ K1). exact (X4 own folders o bsched bfuel order' time stamp K2 eq_refl K4).
Qed.
Print Assumptions C90_extension_rebuilt.

(** ** The folders of which C90 speaks are there, whatever the disk holds *)
Theorem C91_folders_found : forall dest st, exists srcs ss folders, files_in (enter [] dest) st [] srcs /\ object_folders (enter [] dest) st ss /\ reads_all real_lists real_rd ss folders.
Proof. exact folders_found. Qed.
Print Assumptions C91_folders_found.

(** ** A case for C90: the conditions of a file that was read, and those of its sources on the disk *)
Lemma e_module : module_entry Posix false (Some (TDir [(s_info, TFile Props_Stage.ex_brace); (s_text, TFile b_m1)])).
Proof.
  exists Props_Stage.ex_brace, b_m1. split; [exists Props_Stage.ex_data; split; [exact Props_Stage.ex_data_canonical|split; [exact Props_Stage.ex_data_scalar|reflexivity]]|].
  split; [|split; [reflexivity|split; [reflexivity|]]].
  - right. eexists. split; [apply mt_utf8; vm_compute; reflexivity|]. split; [|discriminate]. apply Props_Obj.native_posix. intros Q; apply OrgCodeProofs.mem_ch_in in Q; vm_compute in Q; discriminate.
  - intros n H1 H2. cbn [dget]. apply str_eqb_neq in H1, H2. change s_info with f_info in *. change s_text with f_text in *. rewrite H1, H2. reflexivity.
Qed.
Lemma e_form_at left auto old_dec old_enc c (src : folder) : (Form.f_root c = RForm1 \/ Form.f_root c = RForm) -> (forall n, In n (dkeys e_fsrc) -> dget n src = dget n e_fsrc) ->
  form_at left (Some Props_FormElem.ex_parent) auto old_dec old_enc Posix src c Props_FormObj.fx_uuid k_fname Props_FormObj.fx_locs (u "note"%string) Props_FormObj.fx_new Props_FormObj.fx_hdr.
Proof.
  intros Hc Hs. exists (u "1"%string). split.
  - constructor.
    + exists Props_FormObj.fx_newb. split; [rewrite Hs by (vm_compute; tauto); reflexivity|]. brace_solve.
    + exists [0; 1]%nat. eexists. split; [destruct Hc as [-> | ->]; [constructor|apply si_old; reflexivity]|]. split; [reflexivity|]. split; [constructor|]. split; [|reflexivity]. eexists. split; [reflexivity|]. vm_compute. tauto.
    + do 6 eexists. vm_compute. reflexivity.
    + apply nodup_strs. reflexivity.
  - eapply ff_managed; [rewrite Hs by (vm_compute; tauto); reflexivity| |apply e_managed|]; [brace_solve|]. right. exists Props_FormObj.fx_secondb, Props_FormObj.fx_second. split; [rewrite Hs by (vm_compute; tauto); reflexivity|]. brace_solve.
Qed.
Example C90_processor_hypotheses_met : forall old_enc,
  let old_dec := fun (_ : nat) (_ : val) => Err ExtExc in
  (exists bytes n fuel depth sched, unpack id_inflater n fuel depth sched bytes = Ok [e_psrc] /\ any_order sched) /\
  proc_at Posix (fun _ => true) (fun _ => true) false e_psrc s_803 y_fu y_uuid y_name [(u "ru"%string, y_name)] y_note k_pdata (x_hdr y_uuid y_name) y_ver y_root k_pitems /\
  (forall x, In x k_pitems -> in_place Posix (fun _ => true) (fun _ => true) (fun s => s) e_left false old_dec old_enc k_cont s_803 e_psrc x) /\ different (fun s => s) k_pitems /\ own_names y_fu y_uuid (flat_map below k_pitems) /\
  (let rest := root_own RProc y_fu y_uuid e_psrc ++ flat_map (it_files e_psrc) (flat_map below k_pitems) in few (f_versions :: rest) /\ packable_names e_psrc rest /\ stamps_ok ex_stamp (f_versions :: rest)) /\
  times_ok w_time /\ (packed_size id_deflate ex_stamp w_time e_psrc < 2147483647)%Z /\
  (* what is extracted, and the disk *)
  extract_tree Posix (fun _ => true) (fun _ => true) false e_forms 9 (fun _ l => l) e_psrc = Ok (e_own, e_ss) /\
  laid_out e_own e_ss e_tree /\ plain_folders false e_ss /\ NoDup (map fst e_st) /\ splittable Posix e_table 9 t_dest t_out e_tree e_done /\
  organize Posix e_table 9 (@rev write) (@rev write) t_dest e_tree e_st = Ok e_done.
Proof.
  intros old_enc old_dec. split; [apply w_bytes; vm_compute; reflexivity|]. split; [|split; [|split; [|split; [|split; [|split; [|split]]]]]].
  - constructor.
    + eapply y_file; [reflexivity|brace_solve].
    + eapply y_file; [reflexivity|brace_solve].
    + eapply y_file; [reflexivity|brace_solve].
    + intros bs. discriminate.
    + constructor; [eapply y_file; [reflexivity|brace_solve]|reflexivity|unfold x_hdr; do 6 eexists; reflexivity|apply nodup_strs; reflexivity|reflexivity| | |split; [apply nodotb; reflexivity|apply not_key; reflexivity]].
      * intros p Hp. repeat (destruct Hp as [<-|Hp]; [y_part|]). destruct Hp.
      * intros ? ? Hm. repeat (destruct Hm as [E|Hm]; [injection E as <- <-; first [exact Logic.I|exact e_module]|]). destruct Hm.
    + exists z_, z_, z_, (VStr (x_type "ExternalReport")), k_pinc, [], [], [].
      split; [reflexivity|]. split; [split; [reflexivity|repeat constructor]|]. split.
      * split; [|split; [apply nodup_strs; reflexivity|intros x [<-|[]]; reflexivity]].
        apply (@ls_objects Posix (fun _ => true) (fun _ => true) false e_psrc _ (u "Form"%string) k_pitems [] []); [reflexivity|discriminate|repeat constructor|reflexivity|intros _; split; [repeat constructor|split; reflexivity]|constructor].
      * left. split; [|right; reflexivity]. apply (@vf_three (u "216"%string) 216 z_ (u "80315"%string) [z_] [] []); [reflexivity|lia|apply Nat.leb_le; reflexivity].
  - intros x [<-|[]]. eapply in_form with (locs := Props_FormObj.fx_locs).
    + exists "Form"%string. split; [cbn; tauto|reflexivity].
    + apply x_named; [reflexivity|discriminate].
    + apply e_form_at; [right; reflexivity|]. intros n Hn. repeat (destruct Hn as [<-|Hn]; [reflexivity|]). destruct Hn.
  - apply x_different; apply nodup_strs; reflexivity.
  - split; [apply nodup_strs; reflexivity|]. split; [apply not_key; reflexivity|]. intros w Hw. repeat (destruct Hw as [<-|Hw]; [split; [apply nodotb; reflexivity|apply not_key; reflexivity]|]). destruct Hw.
  - split; [split; [apply y_fits; vm_compute; reflexivity|reflexivity]|]. split; [apply w_names; vm_compute; reflexivity|]. intros n Hn; vm_compute in Hn; repeat (destruct Hn as [<-|Hn]; [split; split; reflexivity || discriminate|]); destruct Hn.
  - intros p; split; split; reflexivity || discriminate.
  - vm_compute. reflexivity.
  - split; [exact e_extracted|]. split; [exact e_laid_out|]. split; [apply e_plain; reflexivity|]. split; [apply nodup_strs; vm_compute; reflexivity|]. split; [exact e_splittable|exact e_organized].
Qed.
