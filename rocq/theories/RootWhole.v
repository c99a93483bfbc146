(** Whole containers with the options of a build (Root.v): from the root and its objects to all files. *)
From Coq Require Import String Permutation.
From Verif Require Import PyBase PyInt PyText Utf Cp1251 Codecs Brace Spec_Brace JsonText JsonTextProofs JsonObj Header Spec_Misc Pipeline Spec_Stage ObjCode Spec_Obj Payload
  Spec_Payload UpdateDictProofs MetaObj Spec_MetaObj MetaObjBase MetaObjPart MetaObjGood MetaObjMain ClassesProofs EncodeLoop Spec_Encode EncodeLoopMain Types Include Spec_Include IncludeMain Tree Spec_Tree Spec_Again TreeProofs TreeBuild Real Spec_Real RealProofs RealMain RealFiles
  Classes MetaObj Root Spec_Root RootCore RootLists RootTree RootSteps RootDetect RootVersions RootOpts RootConfig RootProc RootExt RootMain.
Open Scope list_scope.
Open Scope N_scope.

Lemma config_whole : forall os alnum valid lower auto (fresh : nat -> list N) other_dec other_enc (src : folder) version fu uuid name locs comment data hdr rt ver xs,
  config_at os alnum valid auto src version fu uuid name locs comment data hdr rt ver xs ->
  (forall x, In x xs -> placed os alnum valid lower auto version src (other_dec src) other_enc x) -> different lower xs -> by_name auto other_enc -> (forall n, identifier (fresh n)) ->
  forall xsched xfuel, schedule xsched -> (it_heights xs <= xfuel)%nat ->
  exists own ss, extract_tree os alnum valid auto other_dec xfuel xsched src = Ok (own, ss) /\ Permutation (map fst ss) (flat_map it_folders xs) /\ NoDup (map fst ss) /\
    forall srcs folders o bsched bfuel data' bd', root_sources RConfig name own srcs -> reads_again auto ss folders -> schedule bsched -> (2 * it_heights xs <= bfuel)%nat -> config_effect o data data' -> brace_bytes os data' bd' ->
      let expected := f_versions :: root_own RConfig fu uuid src ++ flat_map (it_files src) (flat_map below xs) in few expected ->
      exists files, build_tree os alnum lower auto fresh other_enc o bfuel bsched srcs folders = Ok files /\
        Permutation (map fst files) expected /\ (own_names fu uuid (flat_map below xs) -> NoDup (map fst files)) /\ (forall n e, In (n, e) files -> n <> f_versions -> same_entry (dget n src) e \/ (n = fu /\ e = Some (TFile bd'))) /\ In (fu, Some (TFile bd')) files /\
        exists e, In (f_versions, e) files /\ versions_in os (map fst files) e.
Proof.
  intros os alnum valid lower auto fresh other_dec other_enc src version fu uuid name locs comment data hdr rt ver xs Hat Hpl Hdf Hbn Hfr xsched xfuel Hs Hf.
  assert (Sv : Forall scalar version).
  { destruct Hat as [_ (Vf & Vv) _ _ _ _]. destruct (read_in _ _ _ _ Vf) as (_ & _ & Vsc). exact (version_scal _ _ Vv Vsc). }
  assert (Hin : forall x, In x xs -> it_inner x = false) by (destruct Hat as [_ _ _ _ _ (r0 & r1 & count & m & ms & more & rest & props & compat & _ & _ & _ & _ & _ & _ & _ & _ & _ & H)]; exact H).
  destruct (all_made os alnum valid lower auto src (other_dec src) other_enc version xs Sv Hpl) as (os' & Hm).
  destruct (config_back os alnum valid lower auto src fresh Hfr _ _ _ _ _ _ _ _ _ _ xs os' Hat Hm Hdf) as (_ & Hdet & own & ks & D1 & D2 & _ & Back).
  destruct (whole os alnum valid lower auto src (other_dec src) other_enc fresh other_dec RConfig version xs os' own ks eq_refl Sv (fun x Hx => conj (Hpl x Hx) (Hin x Hx)) Hdf Hbn Hm Hdet D1 D2 xsched xfuel Hs Hf) as (ss & X1 & X2 & X3 & X4).
  exists own, ss. split; [exact X1|]. split; [exact X2|]. split; [exact X3|].
  intros srcs folders o bsched bfuel data' bd' Hsrc Hr Hbs Hbf Ho Hb expected Hfew. destruct (Back srcs Hsrc) as (h & B1 & B2 & B3).
  destruct (X4 srcs folders bsched bfuel h h B1 B2 Hr Hbs Hbf) as (idx & files & E1 & E2 & E3 & E4).
  destruct (B3 o idx (map fst files) data' bd' E1 Ho Hb) as (out & names & N1 & N2 & N3 & Nf & N4).
  { eapply few_perm; [apply listed_first; exact E2|exact Hfew]. }
  rewrite (E4 o out _ N1), skip_listed. eexists. split; [reflexivity|]. rewrite built_names.
  assert (PP : Permutation (map fst files ++ names) expected) by (unfold expected; eapply perm_trans; [apply Permutation_app; [exact E2|exact N2]|]; apply (Permutation_app_comm _ (f_versions :: root_own RConfig fu uuid src))).
  split; [exact PP|]. split; [|split; [|split]].
  - intros Hon. eapply Permutation_NoDup; [symmetry; exact PP|]. apply (all_names_nodup valid lower src (other_dec src)); [exact Hon|]. intros x Hx. eapply placed_numbers. eapply placed_below; [exact Hpl|exact Hx].
  - intros n e Hi Hn. apply in_app_or in Hi. destruct Hi as [Hi|Hi]; [rewrite Forall_forall in E3; left; exact (E3 _ Hi)|]. apply in_map_iff in Hi. destruct Hi as (n' & E & Hi). injection E as <- <-.
    destruct (str_eq_dec n' fu) as [->|Hnf]; [right; split; [reflexivity|exact Nf]|left]. apply N3; [|exact Hnf]. pose proof (Permutation_in _ N2 Hi) as [H|H]; [congruence|exact H].
  - apply in_or_app. right. apply in_map_iff. exists fu. split; [rewrite Nf; reflexivity|]. eapply Permutation_in; [symmetry; exact N2|right; cbn; tauto].
  - exists (dget f_versions out). split; [|exact N4]. apply in_or_app. right. apply in_map_iff. exists f_versions. split; [reflexivity|]. eapply Permutation_in; [symmetry; exact N2|left; reflexivity].
Qed.

Lemma proc_whole : forall os alnum valid lower auto (fresh : nat -> list N) other_dec other_enc (src : folder) version fu uuid name locs comment data hdr ver copy xs,
  proc_at os alnum valid auto src version fu uuid name locs comment data hdr ver copy xs ->
  (forall x, In x xs -> placed os alnum valid lower auto version src (other_dec src) other_enc x) -> different lower xs -> by_name auto other_enc -> (forall n, identifier (fresh n)) ->
  forall xsched xfuel, schedule xsched -> (it_heights xs <= xfuel)%nat ->
  exists own ss, extract_tree os alnum valid auto other_dec xfuel xsched src = Ok (own, ss) /\ Permutation (map fst ss) (flat_map it_folders xs) /\ NoDup (map fst ss) /\
    forall srcs folders o bsched bfuel data' bd', root_sources RProc name own srcs -> reads_again auto ss folders -> schedule bsched -> (2 * it_heights xs <= bfuel)%nat -> proc_puts o comment data data' -> brace_bytes os data' bd' ->
      let expected := f_versions :: root_own RProc fu uuid src ++ flat_map (it_files src) (flat_map below xs) in few expected ->
      exists files, build_tree os alnum lower auto fresh other_enc o bfuel bsched srcs folders = Ok files /\
        Permutation (map fst files) expected /\ (own_names fu uuid (flat_map below xs) -> NoDup (map fst files)) /\ (forall n e, In (n, e) files -> n <> f_versions -> same_entry (dget n src) e \/ (n = fu /\ e = Some (TFile bd'))) /\ In (fu, Some (TFile bd')) files /\
        exists e, In (f_versions, e) files /\ versions_in os (map fst files) e.
Proof.
  intros os alnum valid lower auto fresh other_dec other_enc src version fu uuid name locs comment data hdr ver copy xs Hat Hpl Hdf Hbn Hfr xsched xfuel Hs Hf.
  assert (Sv : Forall scalar version).
  { destruct Hat as [_ Vf _ _ _ (x0 & x1 & x2 & ty & i & t3 & t0 & rest & _ & _ & _ & [[Vv _]|[_ ->]])]; [|scalars]. destruct (read_in _ _ _ _ Vf) as (_ & _ & Vsc). exact (version_scal _ _ Vv Vsc). }
  assert (Hin : forall x, In x xs -> it_inner x = false) by (destruct Hat as [_ _ _ _ _ (x0 & x1 & x2 & ty & i & t3 & t0 & rest & _ & _ & (_ & _ & H) & _)]; exact H).
  destruct (all_made os alnum valid lower auto src (other_dec src) other_enc version xs Sv Hpl) as (os' & Hm).
  destruct (proc_back os alnum valid lower auto src fresh Hfr _ _ _ _ _ _ _ _ _ _ xs os' Hat Hm Hdf) as (_ & Hdet & own & ks & D1 & D2 & _ & Back).
  destruct (whole os alnum valid lower auto src (other_dec src) other_enc fresh other_dec RProc version xs os' own ks eq_refl Sv (fun x Hx => conj (Hpl x Hx) (Hin x Hx)) Hdf Hbn Hm Hdet D1 D2 xsched xfuel Hs Hf) as (ss & X1 & X2 & X3 & X4).
  exists own, ss. split; [exact X1|]. split; [exact X2|]. split; [exact X3|].
  intros srcs folders o bsched bfuel data' bd' Hsrc Hr Hbs Hbf Ho Hb expected Hfew. destruct (Back srcs Hsrc) as (h & h2 & B1 & B2 & B3).
  destruct (X4 srcs folders bsched bfuel h h2 B1 B2 Hr Hbs Hbf) as (idx & files & E1 & E2 & E3 & E4).
  destruct (B3 o idx (map fst files) data' bd' E1 Ho Hb) as (out & names & N1 & N2 & N3 & Nf & N4).
  { eapply few_perm; [apply listed_first; exact E2|exact Hfew]. }
  rewrite (E4 o out _ N1), skip_listed. eexists. split; [reflexivity|]. rewrite built_names.
  assert (PP : Permutation (map fst files ++ names) expected) by (unfold expected; eapply perm_trans; [apply Permutation_app; [exact E2|exact N2]|]; apply (Permutation_app_comm _ (f_versions :: root_own RProc fu uuid src))).
  split; [exact PP|]. split; [|split; [|split]].
  - intros Hon. eapply Permutation_NoDup; [symmetry; exact PP|]. apply (all_names_nodup valid lower src (other_dec src)); [exact Hon|]. intros x Hx. eapply placed_numbers. eapply placed_below; [exact Hpl|exact Hx].
  - intros n e Hi Hn. apply in_app_or in Hi. destruct Hi as [Hi|Hi]; [rewrite Forall_forall in E3; left; exact (E3 _ Hi)|]. apply in_map_iff in Hi. destruct Hi as (n' & E & Hi). injection E as <- <-.
    destruct (str_eq_dec n' fu) as [->|Hnf]; [right; split; [reflexivity|exact Nf]|left]. apply N3; [|exact Hnf]. pose proof (Permutation_in _ N2 Hi) as [H|H]; [congruence|exact H].
  - apply in_or_app. right. apply in_map_iff. exists fu. split; [rewrite Nf; reflexivity|]. eapply Permutation_in; [symmetry; exact N2|right; cbn; tauto].
  - exists (dget f_versions out). split; [|exact N4]. apply in_or_app. right. apply in_map_iff. exists f_versions. split; [reflexivity|]. eapply Permutation_in; [symmetry; exact N2|left; reflexivity].
Qed.

Lemma ext_whole : forall os alnum valid lower auto (fresh : nat -> list N) other_dec other_enc (src : folder) version fu uuid name locs comment data hdr v copy rest product xs,
  ext_at os alnum valid auto src version fu uuid name locs comment data hdr v copy rest product xs ->
  (forall x, In x xs -> placed os alnum valid lower auto version src (other_dec src) other_enc x) -> different lower xs -> by_name auto other_enc -> ~ In 13 product ->
  forall xsched xfuel, schedule xsched -> (it_heights xs <= xfuel)%nat ->
  exists own ss, extract_tree os alnum valid auto other_dec xfuel xsched src = Ok (own, ss) /\ Permutation (map fst ss) (flat_map it_folders xs) /\ NoDup (map fst ss) /\ txt_read own f_version_bin e_utf8 = Ok product /\
    forall srcs folders o bsched bfuel data' bd', root_sources RExt name own srcs -> reads_again auto ss folders -> schedule bsched -> (2 * it_heights xs <= bfuel)%nat -> ext_puts o comment data data' -> brace_bytes os data' bd' ->
      exists files, build_tree os alnum lower auto fresh other_enc o bfuel bsched srcs folders = Ok files /\
        Permutation (map fst files) (root_own RExt fu uuid src ++ flat_map (it_files src) (flat_map below xs)) /\ (own_names fu uuid (flat_map below xs) -> NoDup (map fst files)) /\ (forall n e, In (n, e) files -> n <> f_configinfo -> same_entry (dget n src) e \/ (n = fu /\ e = Some (TFile bd'))) /\ In (fu, Some (TFile bd')) files /\
        exists bs, In (f_configinfo, Some (TFile bs)) files /\ brace_bytes os (new_info v copy) bs.
Proof.
  intros os alnum valid lower auto fresh other_dec other_enc src version fu uuid name locs comment data hdr v copy rest product xs Hat Hpl Hdf Hbn Hcr xsched xfuel Hs Hf.
  assert (Sv : Forall scalar version).
  { destruct Hat as [(If & _) _ (s & n & x & w & -> & _) _ _]. destruct (read_in _ _ _ _ If) as (_ & _ & Is). rewrite !scal_cons in Is. apply scal_str. tauto. }
  assert (Hin : forall x, In x xs -> it_inner x = false) by (destruct Hat as [_ _ _ _ (r0 & r1 & count & m & ms & more & rest' & props & compat & _ & _ & _ & _ & _ & _ & _ & _ & _ & H)]; exact H).
  destruct (all_made os alnum valid lower auto src (other_dec src) other_enc version xs Sv Hpl) as (os' & Hm).
  destruct (ext_back os alnum valid lower auto src fresh _ _ _ _ _ _ _ _ _ _ _ _ xs os' Hat Hcr Hm Hdf) as (_ & Hdet & own & ks & D1 & D2 & D3 & _ & Back).
  destruct (whole os alnum valid lower auto src (other_dec src) other_enc fresh other_dec RExt version xs os' own ks eq_refl Sv (fun x Hx => conj (Hpl x Hx) (Hin x Hx)) Hdf Hbn Hm Hdet D1 D2 xsched xfuel Hs Hf) as (ss & X1 & X2 & X3 & X4).
  exists own, ss. split; [exact X1|]. split; [exact X2|]. split; [exact X3|]. split; [exact D3|].
  intros srcs folders o bsched bfuel data' bd' Hsrc Hr Hbs Hbf Ho Hb. destruct (Back srcs Hsrc) as (h & h2 & B1 & B2 & B3).
  destruct (X4 srcs folders bsched bfuel h h2 B1 B2 Hr Hbs Hbf) as (idx & files & E1 & E2 & E3 & E4).
  destruct (B3 o idx (map fst files) data' bd' E1 Ho Hb) as (out & names & N1 & N2 & N3 & Nf & N4).
  rewrite (E4 o out _ N1). eexists. split; [reflexivity|]. rewrite built_names.
  assert (PP : Permutation (map fst files ++ names) (root_own RExt fu uuid src ++ flat_map (it_files src) (flat_map below xs))) by (eapply perm_trans; [apply Permutation_app; [exact E2|exact N2]|]; apply Permutation_app_comm).
  split; [exact PP|]. split; [|split; [|split]].
  - intros Hon. eapply Permutation_NoDup; [symmetry; exact PP|]. apply (fun H => proj2 (proj1 (NoDup_cons_iff f_versions _) H)). apply (all_names_nodup valid lower src (other_dec src)); [exact Hon|]. intros x Hx. eapply placed_numbers. eapply placed_below; [exact Hpl|exact Hx].
  - intros n e Hi Hn. apply in_app_or in Hi. destruct Hi as [Hi|Hi]; [rewrite Forall_forall in E3; left; exact (E3 _ Hi)|]. apply in_map_iff in Hi. destruct Hi as (n' & E & Hi). injection E as <- <-.
    destruct (str_eq_dec n' fu) as [->|Hnf]; [right; split; [reflexivity|exact Nf]|left]. apply N3; [exact (Permutation_in _ N2 Hi)|exact Hn|exact Hnf].
  - apply in_or_app. right. apply in_map_iff. exists fu. split; [rewrite Nf; reflexivity|]. eapply Permutation_in; [symmetry; exact N2|right; left; reflexivity].
  - destruct N4 as (bs & N4 & N5). exists bs. split; [|exact N5]. apply in_or_app. right. apply in_map_iff. exists f_configinfo. split; [rewrite N4; reflexivity|]. eapply Permutation_in; [symmetry; exact N2|left; reflexivity].
Qed.

