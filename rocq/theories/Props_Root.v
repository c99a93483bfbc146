(** Whole containers: a configuration, an extension, an external processor or report with all its objects
    (Root.v, Tree.v, EncodeLoop.v, Real.v): the theorems. *)
From Coq Require Import String Permutation.
From Verif Require Import PyBase PyInt PyText Utf Cp1251 Codecs Brace Spec_Brace JsonText JsonObj Header Spec_Misc Pipeline Spec_Stage ObjCode Spec_Obj Payload
  Spec_Payload UpdateDictProofs MetaObj Spec_MetaObj MetaObjBase MetaObjPart MetaObjGood MetaObjMain ClassesProofs EncodeLoop Spec_Encode EncodeLoopMain Types Include Spec_Include IncludeMain Tree Spec_Tree Spec_Again TreeProofs TreeBuild Real Spec_Real RealProofs RealMain RealFiles
  Props_Tree CanonCheck Classes MetaObj Root Spec_Root RootCore RootLists RootTree RootSteps RootDetect RootVersions RootOpts RootConfig RootProc RootExt RootMain RootWhole.
From Verif Require Props_Misc Props_Stage Props_Obj Props_Payload.
Open Scope list_scope.
Open Scope N_scope.

(** ** C61: configurations *)
(** A configuration of any size: extraction, with the tasks ending in any order, gives the sources of the root
    and one folder for each object; a build from these sources, with the folders listed in any order and the
    tasks ending in any order, writes every file of the configuration and of its objects with the same
    content, once each, and the file [versions], which lists exactly the files written. *)
Theorem C61_configuration_restored : forall os alnum valid lower auto (fresh : nat -> list N) other_dec other_enc (src : folder) version fu uuid name locs comment data hdr rt ver xs,
  config_at os alnum valid auto src version fu uuid name locs comment data hdr rt ver xs ->
  (forall x, In x xs -> placed os alnum valid lower auto version src (other_dec src) other_enc x) -> different lower xs -> by_name auto other_enc -> (forall n, identifier (fresh n)) ->
  forall xsched xfuel, schedule xsched -> (it_heights xs <= xfuel)%nat ->
  exists own ss, extract_tree os alnum valid auto other_dec xfuel xsched src = Ok (own, ss) /\ Permutation (map fst ss) (flat_map it_folders xs) /\ NoDup (map fst ss) /\
    forall srcs folders o bsched bfuel, root_sources RConfig name own srcs -> reads_again auto ss folders -> schedule bsched -> (2 * it_heights xs <= bfuel)%nat -> o_version o = None ->
      let expected := f_versions :: root_own RConfig fu uuid src ++ flat_map (it_files src) (flat_map below xs) in few expected ->
      exists files, build_tree os alnum lower auto fresh other_enc o bfuel bsched srcs folders = Ok files /\
        Permutation (map fst files) expected /\ (own_names fu uuid (flat_map below xs) -> NoDup (map fst files)) /\ (forall n e, In (n, e) files -> n <> f_versions -> same_entry (dget n src) e) /\
        exists e, In (f_versions, e) files /\ versions_in os (map fst files) e.
Proof.
  intros os alnum valid lower auto fresh other_dec other_enc src version fu uuid name locs comment data hdr rt ver xs Hat Hpl Hdf Hbn Hfr xsched xfuel Hs Hf.
  destruct (config_whole os alnum valid lower auto fresh other_dec other_enc _ _ _ _ _ _ _ _ _ _ _ _ Hat Hpl Hdf Hbn Hfr xsched xfuel Hs Hf) as (own & ss & X1 & X2 & X3 & X4).
  destruct Hat as [_ _ _ _ [(bd & F1 & F2) _ _ _ _ _ _ _] _].
  exists own, ss. split; [exact X1|]. split; [exact X2|]. split; [exact X3|]. intros srcs folders o bsched bfuel Hsrc Hr Hbs Hbf Ho expected Hfew.
  destruct (X4 srcs folders o bsched bfuel data bd Hsrc Hr Hbs Hbf) as (files & B1 & B2 & B3 & B4 & _ & B5); [unfold config_effect; rewrite Ho; reflexivity|exact F2|exact Hfew|].
  exists files. split; [exact B1|]. split; [exact B2|]. split; [exact B3|]. split; [|exact B5]. intros n e Hi Hn. destruct (B4 n e Hi Hn) as [Q|[-> ->]]; [exact Q|rewrite F1; apply same_refl].
Qed.
Print Assumptions C61_configuration_restored.

(** ** C62: external data processors and reports *)
(** The same for an external processor or report of format 8.1 and later; a comment that holds the mark of a
    version is kept when no product version is given. *)
Theorem C62_processor_restored : forall os alnum valid lower auto (fresh : nat -> list N) other_dec other_enc (src : folder) version fu uuid name locs comment data hdr ver copy xs,
  proc_at os alnum valid auto src version fu uuid name locs comment data hdr ver copy xs ->
  (forall x, In x xs -> placed os alnum valid lower auto version src (other_dec src) other_enc x) -> different lower xs -> by_name auto other_enc -> (forall n, identifier (fresh n)) ->
  forall xsched xfuel, schedule xsched -> (it_heights xs <= xfuel)%nat ->
  exists own ss, extract_tree os alnum valid auto other_dec xfuel xsched src = Ok (own, ss) /\ Permutation (map fst ss) (flat_map it_folders xs) /\ NoDup (map fst ss) /\
    forall srcs folders o bsched bfuel, root_sources RProc name own srcs -> reads_again auto ss folders -> schedule bsched -> (2 * it_heights xs <= bfuel)%nat -> keeps_comment o comment ->
      let expected := f_versions :: root_own RProc fu uuid src ++ flat_map (it_files src) (flat_map below xs) in few expected ->
      exists files, build_tree os alnum lower auto fresh other_enc o bfuel bsched srcs folders = Ok files /\
        Permutation (map fst files) expected /\ (own_names fu uuid (flat_map below xs) -> NoDup (map fst files)) /\ (forall n e, In (n, e) files -> n <> f_versions -> same_entry (dget n src) e) /\
        exists e, In (f_versions, e) files /\ versions_in os (map fst files) e.
Proof.
  intros os alnum valid lower auto fresh other_dec other_enc src version fu uuid name locs comment data hdr ver copy xs Hat Hpl Hdf Hbn Hfr xsched xfuel Hs Hf.
  destruct (proc_whole os alnum valid lower auto fresh other_dec other_enc _ _ _ _ _ _ _ _ _ _ _ _ Hat Hpl Hdf Hbn Hfr xsched xfuel Hs Hf) as (own & ss & X1 & X2 & X3 & X4).
  destruct Hat as [_ _ _ _ [(bd & F1 & F2) _ _ _ _ _ _ _] _].
  exists own, ss. split; [exact X1|]. split; [exact X2|]. split; [exact X3|]. intros srcs folders o bsched bfuel Hsrc Hr Hbs Hbf Ho expected Hfew.
  destruct (X4 srcs folders o bsched bfuel data bd Hsrc Hr Hbs Hbf) as (files & B1 & B2 & B3 & B4 & _ & B5); [exists None; split; [constructor; exact Ho|reflexivity]|exact F2|exact Hfew|].
  exists files. split; [exact B1|]. split; [exact B2|]. split; [exact B3|]. split; [|exact B5]. intros n e Hi Hn. destruct (B4 n e Hi Hn) as [Q|[-> ->]]; [exact Q|rewrite F1; apply same_refl].
Qed.
Print Assumptions C62_processor_restored.

(** ** C63: extensions *)
(** The same for an extension built with the product version that extraction wrote in the file version.bin.
    Its file configinfo is the only one written anew: the format and the copy record stay, and a mark stands in
    the place of the versions, for the list that the last stage of the build puts there (C12). *)
Theorem C63_extension_restored : forall os alnum valid lower auto (fresh : nat -> list N) other_dec other_enc (src : folder) version fu uuid name locs comment data hdr v copy rest product xs,
  ext_at os alnum valid auto src version fu uuid name locs comment data hdr v copy rest product xs ->
  (forall x, In x xs -> placed os alnum valid lower auto version src (other_dec src) other_enc x) -> different lower xs -> by_name auto other_enc -> ~ In 13 product ->
  forall xsched xfuel, schedule xsched -> (it_heights xs <= xfuel)%nat ->
  exists own ss, extract_tree os alnum valid auto other_dec xfuel xsched src = Ok (own, ss) /\ Permutation (map fst ss) (flat_map it_folders xs) /\ NoDup (map fst ss) /\ txt_read own f_version_bin e_utf8 = Ok product /\
    forall srcs folders o bsched bfuel, root_sources RExt name own srcs -> reads_again auto ss folders -> schedule bsched -> (2 * it_heights xs <= bfuel)%nat -> o_version o = None -> o_prefix o = None -> o_product o = [] -> o_product_version o = product -> keeps_comment o comment ->
      exists files, build_tree os alnum lower auto fresh other_enc o bfuel bsched srcs folders = Ok files /\
        Permutation (map fst files) (root_own RExt fu uuid src ++ flat_map (it_files src) (flat_map below xs)) /\ (own_names fu uuid (flat_map below xs) -> NoDup (map fst files)) /\ (forall n e, In (n, e) files -> n <> f_configinfo -> same_entry (dget n src) e) /\
        exists bs, In (f_configinfo, Some (TFile bs)) files /\ brace_bytes os (new_info v copy) bs.
Proof.
  intros os alnum valid lower auto fresh other_dec other_enc src version fu uuid name locs comment data hdr v copy rest product xs Hat Hpl Hdf Hbn Hcr xsched xfuel Hs Hf.
  destruct (ext_whole os alnum valid lower auto fresh other_dec other_enc _ _ _ _ _ _ _ _ _ _ _ _ _ _ Hat Hpl Hdf Hbn Hcr xsched xfuel Hs Hf) as (own & ss & X1 & X2 & X3 & X5 & X4).
  assert (Hput : vput (at_prop 15) (quoted product) (VList data) = Ok (VList data)).
  { destruct Hat as [_ _ _ _ (r0 & r1 & count & m & ms & more & rest' & props & compat & -> & _ & _ & Hw & Hb & Hp & _)]. apply (@prop_same _ props); [|exact Hp]. unfold groups_tree, mgroup_val. cbn [map app]. rewrite Hw. cbn [vat props_at vget nth_error bind inc_val list_val]. rewrite Hb. reflexivity. }
  destruct Hat as [_ _ _ [(bd & F1 & F2) _ _ _ _ _ _ _] _].
  exists own, ss. split; [exact X1|]. split; [exact X2|]. split; [exact X3|]. split; [exact X5|]. intros srcs folders o bsched bfuel Hsrc Hr Hbs Hbf Ho Ho2 Ho3 Ho4 Ho5.
  destruct (X4 srcs folders o bsched bfuel data bd Hsrc Hr Hbs Hbf) as (files & B1 & B2 & B3 & B4 & _ & B5); [|exact F2|].
  { exists None, data, data, data. split; [constructor; exact Ho5|]. unfold product_text. rewrite Ho, Ho2, Ho3, Ho4. split; [exact Hput|]. repeat split; reflexivity. }
  exists files. split; [exact B1|]. split; [exact B2|]. split; [exact B3|]. split; [|exact B5]. intros n e Hi Hn. destruct (B4 n e Hi Hn) as [Q|[-> ->]]; [exact Q|rewrite F1; apply same_refl].
Qed.
Print Assumptions C63_extension_restored.

(** ** C69: the options of a build *)
(** A build with a version, a prefix, a product version or a file name writes the same files; they change only
    the file of the root, and there only the values they name: the compatibility version of a configuration ... *)
Theorem C69_configuration_options : forall os alnum valid lower auto (fresh : nat -> list N) other_dec other_enc (src : folder) version fu uuid name locs comment data hdr rt ver xs,
  config_at os alnum valid auto src version fu uuid name locs comment data hdr rt ver xs ->
  (forall x, In x xs -> placed os alnum valid lower auto version src (other_dec src) other_enc x) -> different lower xs -> by_name auto other_enc -> (forall n, identifier (fresh n)) ->
  forall xsched xfuel, schedule xsched -> (it_heights xs <= xfuel)%nat ->
  exists own ss, extract_tree os alnum valid auto other_dec xfuel xsched src = Ok (own, ss) /\
    forall srcs folders o bsched bfuel data', root_sources RConfig name own srcs -> reads_again auto ss folders -> schedule bsched -> (2 * it_heights xs <= bfuel)%nat -> config_effect o data data' ->
      let expected := f_versions :: root_own RConfig fu uuid src ++ flat_map (it_files src) (flat_map below xs) in few expected ->
      exists files, build_tree os alnum lower auto fresh other_enc o bfuel bsched srcs folders = Ok files /\
        Permutation (map fst files) expected /\ (forall n e, In (n, e) files -> n <> f_versions -> n <> fu -> same_entry (dget n src) e) /\
        (exists bs, In (fu, Some (TFile bs)) files /\ brace_bytes os data' bs) /\ exists e, In (f_versions, e) files /\ versions_in os (map fst files) e.
Proof.
  intros os alnum valid lower auto fresh other_dec other_enc src version fu uuid name locs comment data hdr rt ver xs Hat Hpl Hdf Hbn Hfr xsched xfuel Hs Hf.
  destruct (config_whole os alnum valid lower auto fresh other_dec other_enc _ _ _ _ _ _ _ _ _ _ _ _ Hat Hpl Hdf Hbn Hfr xsched xfuel Hs Hf) as (own & ss & X1 & X2 & X3 & X4).
  destruct Hat as [_ _ _ _ [(bd & F1 & F2) _ _ _ _ _ _ _] _].
  exists own, ss. split; [exact X1|]. intros srcs folders o bsched bfuel data' Hsrc Hr Hbs Hbf Ho expected Hfew. destruct (config_written _ _ F2 Ho) as (bd' & F2').
  destruct (X4 srcs folders o bsched bfuel data' bd' Hsrc Hr Hbs Hbf Ho F2' Hfew) as (files & B1 & B2 & B3 & B4 & B6 & B5).
  exists files. split; [exact B1|]. split; [exact B2|]. split; [|split; [exists bd'; split; assumption|exact B5]]. intros n e Hi Hn Hnf. destruct (B4 n e Hi Hn) as [Q|[-> _]]; [exact Q|congruence].
Qed.
Print Assumptions C69_configuration_options.
(** ... the comment of an external processor ... *)
Theorem C69_processor_options : forall os alnum valid lower auto (fresh : nat -> list N) other_dec other_enc (src : folder) version fu uuid name locs comment data hdr ver copy xs,
  proc_at os alnum valid auto src version fu uuid name locs comment data hdr ver copy xs ->
  (forall x, In x xs -> placed os alnum valid lower auto version src (other_dec src) other_enc x) -> different lower xs -> by_name auto other_enc -> (forall n, identifier (fresh n)) ->
  forall xsched xfuel, schedule xsched -> (it_heights xs <= xfuel)%nat ->
  exists own ss, extract_tree os alnum valid auto other_dec xfuel xsched src = Ok (own, ss) /\
    forall srcs folders o bsched bfuel data', root_sources RProc name own srcs -> reads_again auto ss folders -> schedule bsched -> (2 * it_heights xs <= bfuel)%nat -> proc_effect o comment data data' ->
      let expected := f_versions :: root_own RProc fu uuid src ++ flat_map (it_files src) (flat_map below xs) in few expected ->
      exists files, build_tree os alnum lower auto fresh other_enc o bfuel bsched srcs folders = Ok files /\
        Permutation (map fst files) expected /\ (forall n e, In (n, e) files -> n <> f_versions -> n <> fu -> same_entry (dget n src) e) /\
        (exists bs, In (fu, Some (TFile bs)) files /\ brace_bytes os data' bs) /\ exists e, In (f_versions, e) files /\ versions_in os (map fst files) e.
Proof.
  intros os alnum valid lower auto fresh other_dec other_enc src version fu uuid name locs comment data hdr ver copy xs Hat Hpl Hdf Hbn Hfr xsched xfuel Hs Hf.
  destruct (proc_whole os alnum valid lower auto fresh other_dec other_enc _ _ _ _ _ _ _ _ _ _ _ _ Hat Hpl Hdf Hbn Hfr xsched xfuel Hs Hf) as (own & ss & X1 & X2 & X3 & X4).
  destruct Hat as [_ _ _ _ [(bd & F1 & F2) _ _ _ _ _ _ _] _].
  exists own, ss. split; [exact X1|]. intros srcs folders o bsched bfuel data' Hsrc Hr Hbs Hbf Ho expected Hfew. destruct (proc_written F2 Ho) as (bd' & F2').
  destruct (X4 srcs folders o bsched bfuel data' bd' Hsrc Hr Hbs Hbf (proc_effect_puts Ho) F2' Hfew) as (files & B1 & B2 & B3 & B4 & B6 & B5).
  exists files. split; [exact B1|]. split; [exact B2|]. split; [|split; [exists bd'; split; assumption|exact B5]]. intros n e Hi Hn Hnf. destruct (B4 n e Hi Hn) as [Q|[-> _]]; [exact Q|congruence].
Qed.
Print Assumptions C69_processor_options.
(** ... and the product version, the comment, the compatibility version and the prefix of an extension. *)
Theorem C69_extension_options : forall os alnum valid lower auto (fresh : nat -> list N) other_dec other_enc (src : folder) version fu uuid name locs comment data hdr v copy rest product xs,
  ext_at os alnum valid auto src version fu uuid name locs comment data hdr v copy rest product xs ->
  (forall x, In x xs -> placed os alnum valid lower auto version src (other_dec src) other_enc x) -> different lower xs -> by_name auto other_enc -> ~ In 13 product ->
  forall xsched xfuel, schedule xsched -> (it_heights xs <= xfuel)%nat ->
  exists own ss, extract_tree os alnum valid auto other_dec xfuel xsched src = Ok (own, ss) /\
    forall srcs folders o bsched bfuel data', root_sources RExt name own srcs -> reads_again auto ss folders -> schedule bsched -> (2 * it_heights xs <= bfuel)%nat -> ext_effect o comment data data' ->
      exists files, build_tree os alnum lower auto fresh other_enc o bfuel bsched srcs folders = Ok files /\
        Permutation (map fst files) (root_own RExt fu uuid src ++ flat_map (it_files src) (flat_map below xs)) /\ (forall n e, In (n, e) files -> n <> f_configinfo -> n <> fu -> same_entry (dget n src) e) /\
        (exists bs, In (fu, Some (TFile bs)) files /\ brace_bytes os data' bs) /\ exists bs, In (f_configinfo, Some (TFile bs)) files /\ brace_bytes os (new_info v copy) bs.
Proof.
  intros os alnum valid lower auto fresh other_dec other_enc src version fu uuid name locs comment data hdr v copy rest product xs Hat Hpl Hdf Hbn Hcr xsched xfuel Hs Hf.
  destruct (ext_whole os alnum valid lower auto fresh other_dec other_enc _ _ _ _ _ _ _ _ _ _ _ _ _ _ Hat Hpl Hdf Hbn Hcr xsched xfuel Hs Hf) as (own & ss & X1 & X2 & X3 & X5 & X4).
  destruct Hat as [_ _ _ [(bd & F1 & F2) _ _ _ _ _ _ _] _].
  exists own, ss. split; [exact X1|]. intros srcs folders o bsched bfuel data' Hsrc Hr Hbs Hbf Ho. destruct (ext_written F2 Ho) as (bd' & F2').
  destruct (X4 srcs folders o bsched bfuel data' bd' Hsrc Hr Hbs Hbf (ext_effect_puts Ho) F2') as (files & B1 & B2 & B3 & B4 & B6 & B5).
  exists files. split; [exact B1|]. split; [exact B2|]. split; [|split; [exists bd'; split; assumption|exact B5]]. intros n e Hi Hn Hnf. destruct (B4 n e Hi Hn) as [Q|[-> _]]; [exact Q|congruence].
Qed.
Print Assumptions C69_extension_options.

(** ** C64: the kind of a container and its format *)
(** The build takes the extracted sources for what the container was, with the version of the objects that
    extraction found. *)
Theorem C64_same_kind : forall os alnum valid lower auto (src : folder) version fu uuid name locs comment data hdr k xs other_dec other_enc,
  (k = RConfig /\ (exists rt ver, config_at os alnum valid auto src version fu uuid name locs comment data hdr rt ver xs)) \/
  (k = RProc /\ (exists ver copy, proc_at os alnum valid auto src version fu uuid name locs comment data hdr ver copy xs)) \/
  (k = RExt /\ (exists v copy rest product, ext_at os alnum valid auto src version fu uuid name locs comment data hdr v copy rest product xs /\ ~ In 13 product)) ->
  (forall x, In x xs -> placed os alnum valid lower auto version src other_dec other_enc x) -> different lower xs ->
  detect src = Ok (k, version) /\ exists own ks, root_decode os alnum valid auto k [] version src = Ok (own, ks) /\
    forall srcs, root_sources k name own srcs -> exists h, open_root srcs = Ok (c_name (root_class k), version, h, k).
Proof.
  intros os alnum valid lower auto src version fu uuid name locs comment data hdr k xs other_dec other_enc H Hpl Hdf.
  assert (F : forall n : nat, identifier (repeat 48 36)) by (intros _; split; [reflexivity|apply Forall_forall; intros c Hc; apply repeat_spec in Hc; subst c; right; left; lia]).
  destruct H as [(-> & rt & ver & Hat)|[(-> & ver & copy & Hat)|(-> & v & copy & rest & product & Hat & Hcr)]].
  - destruct (all_made os alnum valid lower auto src other_dec other_enc version xs) as (os' & Hm); [|exact Hpl|].
    { destruct Hat as [_ (Vf & Vv) _ _ _ _]. destruct (read_in _ _ _ _ Vf) as (_ & _ & Vsc). exact (version_scal _ _ Vv Vsc). }
    destruct (config_back os alnum valid lower auto src (fun _ => repeat 48 36) F _ _ _ _ _ _ _ _ _ _ xs os' Hat Hm Hdf) as (_ & Hdet & own & ks & D1 & D2 & _ & Back).
    split; [exact Hdet|]. exists own, ks. split; [exact D1|]. intros srcs Hs. destruct (Back srcs Hs) as (h & B & _). exists h. exact B.
  - destruct (all_made os alnum valid lower auto src other_dec other_enc version xs) as (os' & Hm); [|exact Hpl|].
    { destruct Hat as [_ Vf _ _ _ (x0 & x1 & x2 & ty & i & t3 & t0 & rest & _ & _ & _ & [[Vv _]|[_ ->]])]; [|scalars]. destruct (read_in _ _ _ _ Vf) as (_ & _ & Vsc). exact (version_scal _ _ Vv Vsc). }
    destruct (proc_back os alnum valid lower auto src (fun _ => repeat 48 36) F _ _ _ _ _ _ _ _ _ _ xs os' Hat Hm Hdf) as (_ & Hdet & own & ks & D1 & D2 & _ & Back).
    split; [exact Hdet|]. exists own, ks. split; [exact D1|]. intros srcs Hs. destruct (Back srcs Hs) as (h & h2 & B & _). exists h. exact B.
  - destruct (all_made os alnum valid lower auto src other_dec other_enc version xs) as (os' & Hm); [|exact Hpl|].
    { destruct Hat as [(If & _) _ (s & n & x & w & -> & _) _ _]. destruct (read_in _ _ _ _ If) as (_ & _ & Is). rewrite !scal_cons in Is. apply scal_str. tauto. }
    destruct (ext_back os alnum valid lower auto src (fun _ => repeat 48 36) _ _ _ _ _ _ _ _ _ _ _ _ xs os' Hat Hcr Hm Hdf) as (_ & Hdet & own & ks & D1 & D2 & D3 & _ & Back).
    split; [exact Hdet|]. exists own, ks. split; [exact D1|]. intros srcs Hs. destruct (Back srcs Hs) as (h & h2 & B & _). exists h. exact B.
Qed.
Print Assumptions C64_same_kind.

(** ** C65: sources of another release *)
(** A build succeeds only from sources in which the root recorded a release 1.2.x. *)
Theorem C65_release_checked : forall os alnum lower auto fresh other_enc o fuel sched srcs folders files,
  build_tree os alnum lower auto fresh other_enc o fuel sched srcs folders = Ok files ->
  exists n d s, In n root_files /\ json_read srcs (dotted n x_json) = Ok (Jobj d) /\ dget k_v8unpack (header_of d) = Some (VStr s) /\ same_release s.
Proof.
  intros os alnum lower auto fresh other_enc o fuel sched srcs folders files H. unfold build_tree in H.
  destruct (open_root srcs) as [[[[n version] h] k]|] eqn:Eo; [|discriminate]. cbn [bind] in H.
  destruct (encode_tree _ fuel sched _ folders) as [[idx fs]|]; [|discriminate]. cbn [bind] in H.
  destruct (header_again k h srcs) as [h2|] eqn:Eh; [|discriminate]. cbn [bind] in H.
  destruct (root_encode os alnum lower auto fresh o k version h2 srcs idx (map fst fs)) as [[out names]|] eqn:Er; [|discriminate].
  assert (A : exists n d, In n root_files /\ json_read srcs (dotted n x_json) = Ok (Jobj d) /\ h2 = header_of d).
  { unfold open_root in Eo. destruct (root_file srcs) as [m|] eqn:Ef; [|discriminate]. unfold root_file in Ef. apply find_some in Ef. destruct Ef as [Ef _].
    destruct (json_read srcs (dotted m x_json)) as [j|] eqn:Ej; [|discriminate]. cbn [bind] in Eo. destruct j as [| | | | |d]; try discriminate. cbv zeta in Eo.
    destruct (handler _ _ _ _) as [[k' v']|]; [|discriminate]. cbn [bind] in Eo. assert (h = header_of d) by congruence. subst h.
    assert (Q : forall k0, (j <- json_read srcs (dotted (c_name (root_class k0)) x_json) ;; match j with Jobj d => Ok (header_of d) | _ => Err ExtExc end) = Ok h2 -> In (c_name (root_class k0)) root_files -> exists n d, In n root_files /\ json_read srcs (dotted n x_json) = Ok (Jobj d) /\ h2 = header_of d).
    { intros k0 Hk Hi. destruct (json_read srcs (dotted (c_name (root_class k0)) x_json)) as [j|] eqn:E2; [|discriminate]. cbn [bind] in Hk. destruct j as [| | | | |d2]; try discriminate. exists (c_name (root_class k0)), d2. split; [exact Hi|]. split; [exact E2|congruence]. }
    destruct k; cbn [header_again] in Eh; [exists m, d; split; [exact Ef|split; [exact Ej|congruence]]|apply (Q RExt); [exact Eh|vm_compute; tauto]|apply (Q RProc); [exact Eh|vm_compute; tauto]]. }
  destruct A as (m & d & A1 & A2 & A3). exists m, d.
  assert (S0 : exists s, stored_version h2 = Ok s /\ check_version v8_version s = Ok tt).
  { clear - Er. destruct k; cbn [root_encode] in Er; unfold config_encode, ext_encode, proc_encode in Er; cbv zeta in Er.
    1, 3: destruct (stored_version h2) as [s|]; [|discriminate]; cbn [bind] in Er; exists s; split; [reflexivity|]; destruct (check_version v8_version s) as [[]|]; [reflexivity|discriminate].
    destruct (field s_header h2) as [t|]; [|discriminate]. cbn [bind] in Er. destruct (set_product_version o t) as [t1|]; [|discriminate]. cbn [bind] in Er. destruct (product_comment o RExt t1) as [t2|]; [|discriminate]. cbn [bind] in Er.
    destruct (set_compat o RExt h2 t2) as [t3|]; [|discriminate]. cbn [bind] in Er. destruct (match o_prefix o with Some p => _ | None => _ end) as [t4|]; [|discriminate]. cbn [bind] in Er.
    destruct (stored_version h2) as [s|]; [|discriminate]; cbn [bind] in Er; exists s; split; [reflexivity|]; destruct (check_version v8_version s) as [[]|]; [reflexivity|discriminate]. }
  destruct S0 as (s & S1 & S2). apply check_release in S2. unfold stored_version in S1. rewrite A3 in S1. destruct (dget k_v8unpack (header_of d)) as [v|] eqn:Ev.
  - exists s. split; [exact A1|]. split; [exact A2|]. split; [|exact S2]. destruct v as [|t|]; try discriminate. f_equal. cbn in S1. congruence.
  - exfalso. assert (s = []) as -> by congruence. destruct S2 as (a & b & c & E & _). destruct a; discriminate.
Qed.
Print Assumptions C65_release_checked.
Example C65_releases : same_release (u "1.2.11"%string) /\ same_release (u "1.2.0"%string) /\ ~ same_release (u "1.1.11"%string) /\ ~ same_release (u "1.2"%string).
Proof.
  split; [exists [49], [50], [49; 49]; repeat split; try (apply nodotb; reflexivity)|]. split; [exists [49], [50], [48]; repeat split; try (apply nodotb; reflexivity)|].
  split; intros H; apply check_release in H; vm_compute in H; discriminate.
Qed.

(** A configuration with two groups of objects, an extension and an external report that hold the same kind of
    objects, in both modes: the hypotheses are met. *)
Definition y_fu : list N := Eval vm_compute in u "b2f1c8a0-1111-2222-3333-444455556600"%string.
Definition y_uuid : list N := Eval vm_compute in u "b2f1c8a0-1111-2222-3333-444455556601"%string.
Definition y_mod_u : list N := Eval vm_compute in u "b2f1c8a0-1111-2222-3333-444455556602"%string.
Definition y_role_u : list N := Eval vm_compute in u "b2f1c8a0-1111-2222-3333-444455556603"%string.
Definition y_find (n : string) : class := match find (fun c => str_eqb (u n) (c_name c)) simple_classes with Some c => c | None => data_processor end.
Definition y_mod_c : class := Eval vm_compute in y_find "CommonModule".
Definition y_role_c : class := Eval vm_compute in y_find "Role".
Definition y_name : list N := Eval vm_compute in u "Конфигурация"%string.
Definition y_mname : list N := Eval vm_compute in u "Модуль"%string.
Definition y_rname : list N := Eval vm_compute in u "Роль"%string.
Definition y_note : list N := Eval vm_compute in u "note"%string.
Definition y_obj (uuid name : list N) : list val := [VList [VStr [49]; VList [z_; VList (x_hdr uuid name)]]].
Definition y_mod : list val := Eval vm_compute in y_obj y_mod_u y_mname.
Definition y_role : list val := Eval vm_compute in y_obj y_role_u y_rname.
Definition y_items : list item := [Item y_mod_c y_mod_u y_mname false y_mod []; Item y_role_c y_role_u y_rname false y_role []].
Definition y_product : list N := Eval vm_compute in u "1.0.4"%string.
Definition y_props : list val := Eval vm_compute in [z_; VList [z_; VList (x_hdr y_uuid y_name)]] ++ repeat z_ 13 ++ [Spec_Misc.quoted y_product] ++ repeat z_ 10 ++ [VStr (u "80315"%string)] ++ repeat z_ 20.
Definition y_pprops : list val := Eval vm_compute in [z_; z_; z_; VList [z_; VList (x_hdr y_uuid y_name)]].
Definition y_mods : group := Eval vm_compute in mkgroup (x_type "CommonModule") [49] [VStr y_mod_u] [].
Definition y_roles : group := Eval vm_compute in mkgroup (x_type "Role") [49] [VStr y_role_u] [].
Definition y_inc1 : inc := Eval vm_compute in mkinc (VStr [49]) (VList y_props) [50] [x_fields; y_mods] [].
Definition y_inc2 : inc := Eval vm_compute in mkinc (VStr [49]) z_ [49] [y_roles] [].
Definition y_inc3 : inc := Eval vm_compute in mkinc (VStr [49]) (VList y_pprops) [50] [y_mods; y_roles] [].
Definition y_groups : list mgroup := Eval vm_compute in [mkmgroup (nth 0 group_ids []) None y_inc1 []; mkmgroup (nth 2 group_ids []) (Some []) y_inc2 []].
Definition y_data : list val := Eval vm_compute in groups_tree z_ z_ [50] y_groups [] [].
Definition y_pdata : list val := Eval vm_compute in proc_tree z_ z_ z_ (VStr (x_type "ExternalReport")) y_inc3 [] [] [].
Definition y_root : list val := Eval vm_compute in [VList [VStr s_two; VStr y_fu; VStr []]].
Definition y_vlist : val := Eval vm_compute in VList [VStr (u "216"%string); z_; VList [VStr (u "80315"%string); z_]].
Definition y_ver : list val := Eval vm_compute in [VList [y_vlist]].
Definition y_versions : list val := Eval vm_compute in [VList [VStr [49]; VStr [49]; Spec_Misc.quoted []; VStr y_fu]].
Definition y_copy : val := Eval vm_compute in VList [z_; VStr y_fu].
Definition y_info : list val := Eval vm_compute in [VList [VStr [48]; y_vlist]; y_copy; VList [VStr [49]; z_]].
Definition y_objects : folder := [(y_mod_u, bfile y_mod); (dotted y_mod_u [48], TDir [(s_info, TFile Props_Stage.ex_brace); (s_text, TFile Props_Obj.om_mod1)]); (y_role_u, bfile y_role); (dotted y_role_u [48], TFile [1; 2; 3])].
Definition y_csrc : folder := [(f_root, bfile y_root); (f_version, bfile y_ver); (f_versions, bfile y_versions); (y_fu, bfile y_data); (dotted y_uuid [51], TFile Props_Payload.ex_help_bytes);
  (dotted y_uuid [54], TDir [(s_info, TFile Props_Stage.ex_brace); (s_text, TFile Props_Obj.om_mod1)]); (dotted y_uuid [52], bfile y_versions)] ++ y_objects.
Definition y_esrc : folder := [(f_configinfo, bfile y_info); (y_fu, bfile y_data); (dotted y_uuid [53], TDir [(s_info, TFile Props_Stage.ex_brace); (s_text, TFile Props_Obj.om_mod1)])] ++ y_objects.
Definition y_psrc : folder := [(f_root, bfile y_root); (f_version, bfile y_ver); (f_versions, bfile y_versions); (f_copyinfo, bfile y_root); (y_fu, bfile y_pdata);
  (dotted y_uuid [48], TDir [(s_info, TFile Props_Stage.ex_brace); (s_text, TFile Props_Obj.om_mod1)])] ++ y_objects.

Lemma y_file (src : folder) n d bs : dget n src = Some (TFile bs) -> brace_bytes Posix d bs -> in_file Posix src n d.
Proof. intros H1 H2. exists bs. auto. Qed.
Lemma y_module : module_entry Posix false (Some (TDir [(s_info, TFile Props_Stage.ex_brace); (s_text, TFile Props_Obj.om_mod1)])).
Proof. pose proof Props_Obj.C51_hypotheses_met as (_ & _ & H). apply (H (u "obj"%string) [48]). left. reflexivity. Qed.
Lemma y_placed alnum auto src version : (forall n, In n (dkeys y_objects) -> dget n src = dget n y_objects) ->
  forall x, In x y_items -> placed Posix alnum (fun _ => true) (fun s => s) auto version src no_dec no_enc x.
Proof.
  intros Hs x [<-|[<-|[]]].
  - eapply placed_simple with (locs := [(u "ru"%string, y_mname)]) (comment := y_note) (hdr := x_hdr y_mod_u y_mname).
    + vm_compute. tauto.
    + apply x_named; [reflexivity|discriminate].
    + constructor; [reflexivity|reflexivity|unfold x_hdr; do 6 eexists; reflexivity|apply nodup_strs; reflexivity|intros p []|].
      intros m n [E|[]]. assert (n = [48]) as -> by congruence. rewrite Hs by (vm_compute; tauto). exact y_module.
    + eapply y_file; [rewrite Hs by (vm_compute; tauto); reflexivity|brace_solve].
  - eapply placed_simple with (locs := [(u "ru"%string, y_rname)]) (comment := y_note) (hdr := x_hdr y_role_u y_rname).
    + vm_compute. tauto.
    + apply x_named; [reflexivity|discriminate].
    + constructor; [reflexivity|reflexivity|unfold x_hdr; do 6 eexists; reflexivity|apply nodup_strs; reflexivity| |intros m n []].
      intros p [<-|[]]. right. exists [1; 2; 3]. rewrite Hs by (vm_compute; tauto). reflexivity.
    + eapply y_file; [rewrite Hs by (vm_compute; tauto); reflexivity|brace_solve].
Qed.
Lemma y_listed alnum auto src gs : gs = [x_fields; y_mods; y_roles] \/ gs = [y_mods; y_roles] -> listed Posix alnum (fun _ => true) auto src gs y_items.
Proof.
  assert (K : listed Posix alnum (fun _ => true) auto src [y_mods; y_roles] y_items).
  { apply (@ls_objects Posix alnum (fun _ => true) auto src _ (u "CommonModule"%string) [Item y_mod_c y_mod_u y_mname false y_mod []] _ _);
      [reflexivity|discriminate|repeat constructor|reflexivity|intros _; split; [repeat constructor|split; reflexivity]|].
    apply (@ls_objects Posix alnum (fun _ => true) auto src _ (u "Role"%string) [Item y_role_c y_role_u y_rname false y_role []] [] []);
      [reflexivity|discriminate|repeat constructor|reflexivity|intros _; split; [repeat constructor|split; reflexivity]|constructor]. }
  intros [-> | ->]; [apply ls_unknown; [reflexivity|exact K]|exact K].
Qed.
Lemma y_unique : different (fun s => s) y_items /\ own_names y_fu y_uuid (flat_map below y_items).
Proof.
  split; [apply x_different; apply nodup_strs; reflexivity|].
  split; [apply nodup_strs; reflexivity|]. split; [apply not_key; reflexivity|]. intros w Hw. repeat (destruct Hw as [<-|Hw]; [split; [apply nodotb; reflexivity|apply not_key; reflexivity]|]). destruct Hw.
Qed.
Lemma y_fits names : forallb (fun n => Nat.leb (length n) 62 && forallb (fun c => negb (c =? 34) && negb (c =? 13) && (c <? 128)) n) names = true -> Forall fits names.
Proof.
  intros K. apply Forall_forall. intros n Hn. rewrite forallb_forall in K. apply K in Hn. apply andb_true_iff in Hn. destruct Hn as [L Hn]. apply Nat.leb_le in L. rewrite forallb_forall in Hn. split; [exact L|].
  split; [intros Hi; apply Hn in Hi; discriminate|]. split; [intros Hi; apply Hn in Hi; discriminate|]. apply Forall_forall. intros c Hc. apply Hn in Hc. apply andb_true_iff in Hc. destruct Hc as [_ Hc]. apply N.ltb_lt in Hc. split; [lia|unfold is_surrogate; lia].
Qed.
Ltac y_part := first [solve [left; reflexivity]|solve [exists None; left; constructor]|solve [exists (Some Props_Payload.ex_content); apply Props_Payload.C54_hypotheses_met]|right; exists y_versions; eexists; split; [reflexivity|brace_solve]].
Ltac y_root_at := constructor; [eapply y_file; [reflexivity|brace_solve]|reflexivity|unfold x_hdr; do 6 eexists; reflexivity|apply nodup_strs; reflexivity|reflexivity
  |let p := fresh in let Hp := fresh in intros p Hp; repeat (destruct Hp as [<-|Hp]; [y_part|]); destruct Hp
  |let E := fresh in let Hm := fresh in intros ? ? Hm; repeat (destruct Hm as [E|Hm]; [injection E as <- <-; first [exact I|exact y_module]|]); destruct Hm
  |split; [apply nodotb; reflexivity|apply not_key; reflexivity]].
Lemma y_groups_ok : Forall mgroup_ok y_groups.
Proof.
  repeat (apply Forall_cons; [split; [vm_compute; tauto|split; [split; [reflexivity|repeat constructor]|discriminate]]|]). apply Forall_nil.
Qed.
Lemma y_names alnum auto src incs : flat_map n_gs incs = [x_fields; y_mods; y_roles] \/ flat_map n_gs incs = [y_mods; y_roles] -> lists_name Posix alnum (fun _ => true) auto src incs y_items.
Proof.
  intros H. split; [apply y_listed; exact H|]. split; [destruct H as [-> | ->]; apply nodup_strs; reflexivity|]. intros x [<-|[<-|[]]]; reflexivity.
Qed.
Example C61_hypotheses_met : forall alnum auto,
  config_at Posix alnum (fun _ => true) auto y_csrc s_803 y_fu y_uuid y_name [(u "ru"%string, y_name)] y_note y_data (x_hdr y_uuid y_name) y_root y_ver y_items /\
  (forall x, In x y_items -> placed Posix alnum (fun _ => true) (fun s => s) auto s_803 y_csrc no_dec no_enc x) /\ different (fun s => s) y_items /\
  own_names y_fu y_uuid (flat_map below y_items) /\ few (f_versions :: root_own RConfig y_fu y_uuid y_csrc ++ flat_map (it_files y_csrc) (flat_map below y_items)) /\
  length (root_own RConfig y_fu y_uuid y_csrc ++ flat_map (it_files y_csrc) (flat_map below y_items)) = 10%nat.
Proof.
  intros alnum auto. split; [|split; [|split; [|split; [|split]]]].
  - constructor.
    + split; [eapply y_file; [reflexivity|brace_solve]|reflexivity].
    + split; [eapply y_file; [reflexivity|brace_solve]|]. apply (@vf_three (u "216"%string) 216 z_ (u "80315"%string) [z_] [] []); [reflexivity|lia|apply Nat.leb_le; reflexivity].
    + exists y_versions. eapply y_file; [reflexivity|brace_solve].
    + intros bs. discriminate.
    + y_root_at.
    + exists z_, z_, [50], (mkmgroup (nth 0 group_ids []) None y_inc1 []), [mkmgroup (nth 2 group_ids []) (Some []) y_inc2 []], [], [], y_props, (VStr (u "80315"%string)).
      split; [reflexivity|]. split; [reflexivity|]. split; [apply y_groups_ok|]. do 4 (split; [reflexivity|]). apply y_names. left. reflexivity.
  - apply y_placed. intros n Hn. repeat (destruct Hn as [<-|Hn]; [reflexivity|]). destruct Hn.
  - apply y_unique.
  - apply y_unique.
  - split; [apply y_fits; vm_compute; reflexivity|reflexivity].
  - vm_compute. reflexivity.
Qed.
Example C62_hypotheses_met : forall alnum auto,
  proc_at Posix alnum (fun _ => true) auto y_psrc s_803 y_fu y_uuid y_name [(u "ru"%string, y_name)] y_note y_pdata (x_hdr y_uuid y_name) y_ver y_root y_items /\
  (forall x, In x y_items -> placed Posix alnum (fun _ => true) (fun s => s) auto s_803 y_psrc no_dec no_enc x) /\ different (fun s => s) y_items /\
  own_names y_fu y_uuid (flat_map below y_items) /\ few (f_versions :: root_own RProc y_fu y_uuid y_psrc ++ flat_map (it_files y_psrc) (flat_map below y_items)) /\
  (forall o, keeps_comment o y_note) /\ length (root_own RProc y_fu y_uuid y_psrc ++ flat_map (it_files y_psrc) (flat_map below y_items)) = 9%nat.
Proof.
  intros alnum auto. split; [|split; [|split; [|split; [|split; [|split]]]]].
  - constructor.
    + eapply y_file; [reflexivity|brace_solve].
    + eapply y_file; [reflexivity|brace_solve].
    + eapply y_file; [reflexivity|brace_solve].
    + intros bs. discriminate.
    + y_root_at.
    + exists z_, z_, z_, (VStr (x_type "ExternalReport")), y_inc3, [], [], []. split; [reflexivity|]. split; [split; [reflexivity|repeat constructor]|]. split; [apply y_names; right; reflexivity|].
      left. split; [|right; reflexivity]. apply (@vf_three (u "216"%string) 216 z_ (u "80315"%string) [z_] [] []); [reflexivity|lia|apply Nat.leb_le; reflexivity].
  - apply y_placed. intros n Hn. repeat (destruct Hn as [<-|Hn]; [reflexivity|]). destruct Hn.
  - apply y_unique.
  - apply y_unique.
  - split; [apply y_fits; vm_compute; reflexivity|reflexivity].
  - intros o. right. right. intros (a & b & E). do 5 (destruct a as [|? a]; [discriminate|]). discriminate.
  - vm_compute. reflexivity.
Qed.
Example C63_hypotheses_met : forall alnum auto,
  ext_at Posix alnum (fun _ => true) auto y_esrc (u "80315"%string) y_fu y_uuid y_name [(u "ru"%string, y_name)] y_note y_data (x_hdr y_uuid y_name) y_vlist y_copy [VList [VStr [49]; z_]] y_product y_items /\
  (forall x, In x y_items -> placed Posix alnum (fun _ => true) (fun s => s) auto (u "80315"%string) y_esrc no_dec no_enc x) /\ different (fun s => s) y_items /\
  own_names y_fu y_uuid (flat_map below y_items) /\ ~ In 13 y_product /\ length (root_own RExt y_fu y_uuid y_esrc ++ flat_map (it_files y_esrc) (flat_map below y_items)) = 7%nat.
Proof.
  intros alnum auto. split; [|split; [|split; [|split; [|split]]]].
  - constructor.
    + split; [eapply y_file; [reflexivity|brace_solve]|reflexivity].
    + intros bs. discriminate.
    + exists (u "216"%string), 216%Z, z_, [z_]. split; [reflexivity|]. split; [reflexivity|]. split; [lia|reflexivity].
    + y_root_at.
    + exists z_, z_, [50], (mkmgroup (nth 0 group_ids []) None y_inc1 []), [mkmgroup (nth 2 group_ids []) (Some []) y_inc2 []], [], [], y_props, z_.
      split; [reflexivity|]. split; [reflexivity|]. split; [apply y_groups_ok|]. do 4 (split; [reflexivity|]). apply y_names. left. reflexivity.
  - apply y_placed. intros n Hn. repeat (destruct Hn as [<-|Hn]; [reflexivity|]). destruct Hn.
  - apply y_unique.
  - apply y_unique.
  - intros H. vm_compute in H. repeat (destruct H as [H|H]; [discriminate|]). destruct H.
  - vm_compute. reflexivity.
Qed.
(** the extension of C63 built as version 80316 of product acme with prefix ABC_, and a comment with a mark *)
Definition y_opts : ropts := mkropts (Some (u "80316"%string)) (Some (u "ABC_"%string)) (u "acme"%string) (u "1.2.3"%string) (u "acme.cfe"%string).
Definition y_put (p : list nat) (x : val) (d : list val) : list val := match vput p x (VList d) with Ok (VList d') => d' | _ => [] end.
Definition y_data1 : list val := Eval vm_compute in y_put (at_prop 15) (quoted (u "acme_1.2.3"%string)) y_data.
Definition y_data2 : list val := Eval vm_compute in y_put (at_prop 43) (VStr (u "80316"%string)) y_data1.
Definition y_data3 : list val := Eval vm_compute in y_put (at_prop 42) (quoted (u "ABC_"%string)) y_data2.
Lemma y_given s p d d' : leafb s = true -> forallb (fun c => c <? 128) s = true -> vput p (VStr s) (VList d) = Ok (VList d') -> (forall old, vat p (VList d) = Ok old -> is_leaf old) -> if_given (Some (VStr s)) p d d'.
Proof.
  intros H1 H2 H3 H4. split; [exists s; split; [reflexivity|]; split; [apply leafb_ok, H1|]|].
  - apply Forall_forall. intros c Hc. rewrite forallb_forall in H2. apply H2 in Hc. apply N.ltb_lt in Hc. split; [lia|unfold is_surrogate; lia].
  - destruct (put_changed _ _ _ H3) as (old & Ho & Hc). exists old. split; [exact (H4 _ Ho)|exact Hc].
Qed.
Ltac y_leaf := let old := fresh in let H := fresh in intros old H; vm_compute in H; injection H as <-; exact I.
Example C69_hypotheses_met : ext_effect y_opts y_note y_data y_data3 /\ (exists d, config_effect y_opts y_data d /\ d <> y_data) /\
  (exists c, commented y_opts (u "note ver:1.0"%string) (Some c) /\ c = quoted (u "note ver:acme.cfe:1.2.3"%string)).
Proof.
  split; [|split].
  - exists None, y_data1, y_data1, y_data2. split; [constructor; right; right; intros (a & b & E); do 5 (destruct a as [|? a]; [discriminate|]); discriminate|].
    split; [apply y_given; [reflexivity|reflexivity|reflexivity|y_leaf]|]. split; [reflexivity|]. split; (apply y_given; [reflexivity|reflexivity|reflexivity|y_leaf]).
  - exists (y_put (at_prop 26) (VStr (u "80316"%string)) y_data). split; [apply y_given; [reflexivity|reflexivity|reflexivity|y_leaf]|]. vm_compute. congruence.
  - eexists. split; [apply (@co_new y_opts (u "note ver:1.0"%string) (u "note "%string) (u "1.0"%string)); [discriminate|discriminate|reflexivity|]|reflexivity].
    intros a' b' E. do 5 (destruct a' as [|? a']; [discriminate|]). cbn [length]. change (length (u "note "%string)) with 5%nat. lia.
Qed.
(** A prefix with a quotation mark gives a root file that cannot be read: the mark is written as it is, not
    doubled (helper.py str_encode). *)
Theorem C69_quote_refuted : exists p d' bs, vput ext_prefix_at (VStr (str_encode p)) (VList y_data) = Ok (VList d') /\ brace_file_write Posix d' [] = (Ok tt, bs) /\ forall v, brace_read [(y_fu, TFile bs)] y_fu <> Ok v.
Proof.
  exists (u "a""b"%string). eexists. eexists. split; [reflexivity|]. split; [vm_compute; reflexivity|]. intros v H. vm_compute in H. discriminate.
Qed.
Print Assumptions C69_quote_refuted.
