(** C83-C85: whole files, from their bytes to the extracted objects and back.
    Model: Whole.v (Pipeline.v, Root.v, FormReal.v); specification: Spec_Whole.v, Spec_Root.v, Spec_FormReal.v. *)
From Coq Require Import String Permutation Lia.
From Verif Require Import PyBase PyInt PyText Utf Cp1251 Codecs Brace Spec_Brace JsonText JsonTextProofs JsonObj Header Spec_Misc Container Spec_Container Pipeline Spec_Pipeline PipelineProofs PipelineMore PipelineItems Spec_Stage ObjCode Spec_Obj Payload
  Spec_Payload UpdateDictProofs MetaObj Spec_MetaObj MetaObjBase MetaObjPart MetaObjGood MetaObjMain ClassesProofs EncodeLoop Spec_Encode EncodeLoopMain Types Include Spec_Include IncludeMain Tree Spec_Tree Spec_Again TreeProofs TreeBuild Real Spec_Real RealProofs RealMain RealFiles
  Props_Tree CanonCheck Root Spec_Root RootCore RootLists RootTree RootSteps RootDetect RootVersions RootOpts RootConfig RootProc RootExt RootMain RootWhole Props_Root
  FormElem Spec_FormElem Form Spec_FormObj FormObjElem FormReal Spec_FormReal FormRealProofs FormCont Classes MetaObj Props_Pipeline Whole Spec_Whole WholeProofs WholeMain WholeInfo Props_FormReal.
From Verif Require Props_Misc Props_Stage Props_Obj Props_Payload Props_FormObj Props_FormElem.
Open Scope list_scope.
Open Scope N_scope.

Lemma no_reserved k fu uuid (src : folder) xs name : In name reserved -> ~ In name (firstn 3 [Root.f_root; f_version; f_copyinfo] ++ (match k with RExt => [f_configinfo] | _ => [] end)) -> own_names fu uuid xs ->
  ~ In name (root_own k fu uuid src ++ flat_map (it_files src) xs).
Proof.
  intros Hres Hno (_ & _ & Hres') Hin.
  assert (Hdot : ~ In 46 name) by (apply nodotb; repeat (destruct Hres as [<-|Hres]; [reflexivity|]); destruct Hres).
  assert (Hdd : forall a b, name <> dotted a b) by (intros a b ->; apply Hdot; unfold dotted; apply in_or_app; right; left; reflexivity).
  assert (Hu : forall w, In w (uuid :: fu :: map it_uuid xs) -> name <> w) by (intros w Hw ->; apply (proj2 (Hres' w Hw)), Hres).
  apply in_app_or in Hin. destruct Hin as [Hin|Hin].
  - unfold root_own in Hin. apply in_app_or in Hin. destruct Hin as [Hin|Hin].
    + destruct k; cbn [firstn app In] in *; repeat (destruct Hin as [Hin|Hin]; [first [solve [apply Hno; tauto]|solve [apply (Hu fu); [right; left; reflexivity|symmetry; exact Hin]]]|]); destruct Hin.
    + apply here_in in Hin. destruct Hin as (m & ->). eapply Hdd. reflexivity.
  - apply in_flat_map in Hin. destruct Hin as (x & Hx & Hin). unfold it_files, object_files in Hin. rewrite !in_app_iff in Hin.
    destruct Hin as [Hin|[Hin|[Hin|Hin]]]; [| destruct (negb (it_inner x)); [destruct Hin as [Hin|[]]|destruct Hin]; apply (Hu (it_uuid x)); [right; right; apply in_map, Hx|symmetry; exact Hin]| |];
      apply here_in in Hin; destruct Hin as (m & ->); eapply Hdd; reflexivity.
Qed.
(** ** C83: configurations and external processors *)
(** The bytes of a configuration file that holds one container: extraction gives the objects, and a build from these
    sources writes a file that unpacks to the same names, each with the same content but for the file [versions], which
    lists the names; in every order of listing, of extraction and of building. *)
Theorem C83_configuration_file_restored : forall os alnum valid lower repr left auto old_dec old_enc cont (fresh : nat -> list N) deflate digest inf
    (bytes : list N) n fuel depth sched order (src : folder) version fu uuid name locs comment data hdr rt ver xs,
  (forall v, Forall scalar (concat (leaves v)) -> Forall scalar (repr v)) -> (forall d, restores_promptly inf (deflate d) d) ->
  unpack inf n fuel depth sched bytes = Ok [src] -> listing_order order ->
  config_at os alnum valid auto src version fu uuid name locs comment data hdr rt ver xs ->
  (forall x, In x xs -> in_place os alnum valid lower left auto old_dec old_enc cont version src x) -> different lower xs -> (forall k, identifier (fresh k)) -> own_names fu uuid (flat_map below xs) ->
  let rest := root_own RConfig fu uuid src ++ flat_map (it_files src) (flat_map below xs) in
  few (f_versions :: rest) -> packable_names src rest ->
  forall xsched xfuel, schedule xsched -> (it_heights xs <= xfuel)%nat ->
  exists own ss, extract_file os alnum valid auto (forms_dec os valid repr left auto old_dec cont) inf n fuel depth sched order xfuel xsched bytes = Ok (own, ss, None) /\
    Permutation (map fst ss) (flat_map it_folders xs) /\ NoDup (map fst ss) /\
    forall srcs folders o bsched bfuel order' time stamp,
      root_sources RConfig name own srcs -> dget f_version_bin srcs = None -> reads_again auto ss folders -> schedule bsched -> (2 * it_heights xs <= bfuel)%nat -> o_version o = None ->
      listing_order order' -> times_ok time -> stamps_ok stamp (f_versions :: rest) ->
      exists files, build_tree os alnum lower auto fresh (forms_enc os repr auto old_enc cont) o bfuel bsched srcs folders = Ok files /\
        ((packed_size deflate stamp time (on_disk files) < 2147483647)%Z ->
         exists bytes' M, build_file os alnum lower auto fresh (forms_enc os repr auto old_enc cont) deflate digest o bfuel bsched srcs folders None order' time stamp = Ok bytes' /\
           forall sched' n' fuel' depth', any_order sched' -> (2 <= n')%nat -> (M <= fuel')%nat ->
           exists src', unpack inf n' fuel' depth' sched' bytes' = Ok [src'] /\ same_folder [f_versions] (f_versions :: rest) src src' /\
             exists names, Permutation names (f_versions :: rest) /\ versions_in os names (dget f_versions src')).
Proof.
  intros os alnum valid lower repr left auto old_dec old_enc cont fresh deflate digest inf bytes n fuel depth sched order src version fu uuid name locs comment data hdr rt ver xs
    Hr Hinf Hu Hord Hat Hpl Hdf Hfr Hon rest Hfew Hpk xsched xfuel Hs Hf.
  destruct (@C75_configuration_with_forms_restored os alnum valid lower repr left auto old_dec old_enc cont fresh src version fu uuid name locs comment data hdr rt ver xs Hr Hat Hpl Hdf Hfr xsched xfuel Hs Hf) as (own & ss & X1 & X2 & X3 & X4).
  exists own, ss. split; [unfold extract_file; rewrite Hu; cbn [bind]; rewrite (single_choose order src Hord); cbn [bind]; rewrite X1; reflexivity|]. split; [exact X2|]. split; [exact X3|].
  intros srcs folders o bsched bfuel order' time stamp Hsrc Hvb Hra Hbs Hbf Ho Hord' Ht Hst.
  destruct (X4 srcs folders o bsched bfuel Hsrc Hra Hbs Hbf Ho Hfew) as (files & B1 & B2 & B3 & B4 & e & B5 & B6).
  exists files. split; [exact B1|]. intros Hsz. destruct B6 as (vd & bs & -> & Hbb & Hvo).
  destruct (@rebuilt_bytes deflate digest os inf Hinf src rest files bs order' time stamp) as (bytes' & M & P & U).
  - split; [exact B2|]. split; [apply B3, Hon|exact B4].
  - exact Hpk.
  - exact B5.
  - apply (@brace_not_container os _ _ Hbb).
  - apply no_reserved; [right; right; right; right; left; reflexivity|apply not_key; reflexivity|exact Hon].
  - exact Hord'.
  - exact Ht.
  - exact Hst.
  - exact Hsz.
  - exists bytes', M. split; [unfold build_file, with_product, txt_read; rewrite Hvb; cbn [bind]; rewrite B1; cbn [bind]; exact P|].
    intros sched' n' fuel' depth' H1 H2 H3. destruct (U sched' n' fuel' depth' H1 H2 H3) as (src' & E & Sf & Ev). exists src'. split; [exact E|]. split; [exact Sf|].
    exists (map fst files). split; [exact B2|]. exists vd, bs. split; [exact Ev|]. split; assumption.
Qed.
Print Assumptions C83_configuration_file_restored.
(** The same for an external processor or report. *)
Theorem C83_processor_file_restored : forall os alnum valid lower repr left auto old_dec old_enc cont (fresh : nat -> list N) deflate digest inf
    (bytes : list N) n fuel depth sched order (src : folder) version fu uuid name locs comment data hdr ver copy xs,
  (forall v, Forall scalar (concat (leaves v)) -> Forall scalar (repr v)) -> (forall d, restores_promptly inf (deflate d) d) ->
  unpack inf n fuel depth sched bytes = Ok [src] -> listing_order order ->
  proc_at os alnum valid auto src version fu uuid name locs comment data hdr ver copy xs ->
  (forall x, In x xs -> in_place os alnum valid lower left auto old_dec old_enc cont version src x) -> different lower xs -> (forall k, identifier (fresh k)) -> own_names fu uuid (flat_map below xs) ->
  let rest := root_own RProc fu uuid src ++ flat_map (it_files src) (flat_map below xs) in
  few (f_versions :: rest) -> packable_names src rest ->
  forall xsched xfuel, schedule xsched -> (it_heights xs <= xfuel)%nat ->
  exists own ss, extract_file os alnum valid auto (forms_dec os valid repr left auto old_dec cont) inf n fuel depth sched order xfuel xsched bytes = Ok (own, ss, None) /\
    Permutation (map fst ss) (flat_map it_folders xs) /\ NoDup (map fst ss) /\
    forall srcs folders o bsched bfuel order' time stamp,
      root_sources RProc name own srcs -> dget f_version_bin srcs = None -> reads_again auto ss folders -> schedule bsched -> (2 * it_heights xs <= bfuel)%nat -> keeps_comment o comment ->
      listing_order order' -> times_ok time -> stamps_ok stamp (f_versions :: rest) ->
      exists files, build_tree os alnum lower auto fresh (forms_enc os repr auto old_enc cont) o bfuel bsched srcs folders = Ok files /\
        ((packed_size deflate stamp time (on_disk files) < 2147483647)%Z ->
         exists bytes' M, build_file os alnum lower auto fresh (forms_enc os repr auto old_enc cont) deflate digest o bfuel bsched srcs folders None order' time stamp = Ok bytes' /\
           forall sched' n' fuel' depth', any_order sched' -> (2 <= n')%nat -> (M <= fuel')%nat ->
           exists src', unpack inf n' fuel' depth' sched' bytes' = Ok [src'] /\ same_folder [f_versions] (f_versions :: rest) src src' /\
             exists names, Permutation names (f_versions :: rest) /\ versions_in os names (dget f_versions src')).
Proof.
  intros os alnum valid lower repr left auto old_dec old_enc cont fresh deflate digest inf bytes n fuel depth sched order src version fu uuid name locs comment data hdr ver copy xs
    Hr Hinf Hu Hord Hat Hpl Hdf Hfr Hon rest Hfew Hpk xsched xfuel Hs Hf.
  destruct (@C75_processor_with_forms_restored os alnum valid lower repr left auto old_dec old_enc cont fresh src version fu uuid name locs comment data hdr ver copy xs Hr Hat Hpl Hdf Hfr xsched xfuel Hs Hf) as (own & ss & X1 & X2 & X3 & X4).
  exists own, ss. split; [unfold extract_file; rewrite Hu; cbn [bind]; rewrite (single_choose order src Hord); cbn [bind]; rewrite X1; reflexivity|]. split; [exact X2|]. split; [exact X3|].
  intros srcs folders o bsched bfuel order' time stamp Hsrc Hvb Hra Hbs Hbf Ho Hord' Ht Hst.
  destruct (X4 srcs folders o bsched bfuel Hsrc Hra Hbs Hbf Ho Hfew) as (files & B1 & B2 & B3 & B4 & e & B5 & B6).
  exists files. split; [exact B1|]. intros Hsz. destruct B6 as (vd & bs & -> & Hbb & Hvo).
  destruct (@rebuilt_bytes deflate digest os inf Hinf src rest files bs order' time stamp) as (bytes' & M & P & U).
  - split; [exact B2|]. split; [apply B3, Hon|exact B4].
  - exact Hpk.
  - exact B5.
  - apply (@brace_not_container os _ _ Hbb).
  - apply no_reserved; [right; right; right; right; left; reflexivity|apply not_key; reflexivity|exact Hon].
  - exact Hord'.
  - exact Ht.
  - exact Hst.
  - exact Hsz.
  - exists bytes', M. split; [unfold build_file, with_product, txt_read; rewrite Hvb; cbn [bind]; rewrite B1; cbn [bind]; exact P|].
    intros sched' n' fuel' depth' H1 H2 H3. destruct (U sched' n' fuel' depth' H1 H2 H3) as (src' & E & Sf & Ev). exists src'. split; [exact E|]. split; [exact Sf|].
    exists (map fst files). split; [exact B2|]. exists vd, bs. split; [exact Ev|]. split; assumption.
Qed.
Print Assumptions C83_processor_file_restored.

(** ** C84: extensions *)
(** The bytes of an extension: the same, with the product version read back from the file version.bin that extraction
    wrote.  The file configinfo of the new file holds the format, the copy record and the number of the other files with
    the name and the digest of each as it stands, compressed, in the new file. *)
Theorem C84_extension_file_restored : forall os alnum valid lower repr left auto old_dec old_enc cont (fresh : nat -> list N) deflate digest inf
    (bytes : list N) n fuel depth sched order (src : folder) version fu uuid name locs comment data hdr v copy more bs0 product xs,
  (forall v, Forall scalar (concat (leaves v)) -> Forall scalar (repr v)) -> (forall d, restores_promptly inf (deflate d) d) -> (forall d, sha1_text (digest d)) ->
  unpack inf n fuel depth sched bytes = Ok [src] -> listing_order order ->
  ext_at os alnum valid auto src version fu uuid name locs comment data hdr v copy more product xs -> ~ In 13 product ->
  dget f_configinfo src = Some (TFile bs0) -> unmarked os bs0 ->
  (forall x, In x xs -> in_place os alnum valid lower left auto old_dec old_enc cont version src x) -> different lower xs -> own_names fu uuid (flat_map below xs) ->
  let rest := fu :: here uuid src (numbers (root_class RExt)) ++ flat_map (it_files src) (flat_map below xs) in
  few rest -> packable_names src rest ->
  forall xsched xfuel, schedule xsched -> (it_heights xs <= xfuel)%nat ->
  exists own ss, extract_file os alnum valid auto (forms_dec os valid repr left auto old_dec cont) inf n fuel depth sched order xfuel xsched bytes = Ok (own, ss, None) /\
    Permutation (map fst ss) (flat_map it_folders xs) /\ NoDup (map fst ss) /\
    forall srcs folders o bsched bfuel order' time stamp,
      root_sources RExt name own srcs -> dget f_version_bin srcs = dget f_version_bin own -> reads_again auto ss folders -> schedule bsched -> (2 * it_heights xs <= bfuel)%nat ->
      o_version o = None -> o_prefix o = None -> o_product o = [] -> (o_file o = [] \/ product = [] \/ ~ exists a b, comment = a ++ ver_mark ++ b) ->
      listing_order order' -> times_ok time -> stamps_ok stamp (f_configinfo :: rest) ->
      exists files others new, build_tree os alnum lower auto fresh (forms_enc os repr auto old_enc cont) (mkropts None None [] product (o_file o)) bfuel bsched srcs folders = Ok files /\
        brace_bytes os [VList [VStr [48]; v]; copy; digest_list digest others] new /\
        ((packed_size deflate stamp time (dset f_configinfo (TFile new) (on_disk files)) < 2147483647)%Z ->
         exists bytes' M, build_file os alnum lower auto fresh (forms_enc os repr auto old_enc cont) deflate digest o bfuel bsched srcs folders None order' time stamp = Ok bytes' /\
           (forall n' fuel', (2 <= n')%nat -> (M <= fuel')%nat -> exists stored, extract_all n' fuel' bytes' = Ok [stored] /\ filter (fun e => negb (str_eqb (fst e) f_configinfo)) stored = others) /\
           forall sched' n' fuel' depth', any_order sched' -> (2 <= n')%nat -> (M <= fuel')%nat ->
           exists src', unpack inf n' fuel' depth' sched' bytes' = Ok [src'] /\ same_folder [f_configinfo] (f_configinfo :: rest) src src' /\ dget f_configinfo src' = Some (TFile new)).
Proof.
  intros os alnum valid lower repr left auto old_dec old_enc cont fresh deflate digest inf bytes n fuel depth sched order src version fu uuid name locs comment data hdr v copy more bs0 product xs
    Hr Hinf Hsha Hu Hord Hat Hcr Hd0 Hum Hpl Hdf Hon rest Hfew Hpk xsched xfuel Hs Hf.
  destruct (@C75_extension_with_forms_restored os alnum valid lower repr left auto old_dec old_enc cont fresh src version fu uuid name locs comment data hdr v copy more product xs Hr Hat Hpl Hdf Hcr xsched xfuel Hs Hf) as (own & ss & X1 & X2 & X3 & X5 & X4).
  exists own, ss. split; [unfold extract_file; rewrite Hu; cbn [bind]; rewrite (single_choose order src Hord); cbn [bind]; rewrite X1; reflexivity|]. split; [exact X2|]. split; [exact X3|].
  intros srcs folders o bsched bfuel order' time stamp Hsrc Hvb Hra Hbs Hbf Ho Ho2 Ho3 Hkc Hord' Ht Hst.
  set (o' := mkropts None None [] product (o_file o)).
  destruct (X4 srcs folders o' bsched bfuel Hsrc Hra Hbs Hbf eq_refl eq_refl eq_refl eq_refl Hkc) as (files & B1 & B2 & B3 & B4 & bs & B5 & B6).
  destruct Hat as [[(bs1 & Hd1 & Hb1) _] _ _ _ _]. assert (bs1 = bs0) by congruence. subst bs1.
  destruct (@rebuilt_info deflate digest os inf Hinf Hsha src rest files bs0 bs v copy more order' time stamp) as (others & new & N1 & K).
  - split; [exact B2|]. split; [apply B3, Hon|exact B4].
  - exact Hpk.
  - exact B5.
  - exact Hb1.
  - exact Hum.
  - exact B6.
  - discriminate.
  - destruct Hfew as [_ Hz]. unfold zlen. lia.
  - apply Hfew.
  - exact Hord'.
  - exact Ht.
  - exact Hst.
  - exists files, others, new. split; [exact B1|]. split; [exact N1|]. intros Hsz. destruct (K Hsz) as (bytes' & M & P & X & U). exists bytes', M. split; [|split; [exact X|exact U]].
    unfold build_file, with_product. assert (E : txt_read srcs f_version_bin e_utf8 = Ok product) by (unfold txt_read in *; rewrite Hvb; exact X5). rewrite E. cbn [bind]. rewrite Ho, Ho2, Ho3. fold o'. rewrite B1. cbn [bind]. exact P.
Qed.
Print Assumptions C84_extension_file_restored.

(** ** C85: which container is decoded *)
(** Only files of one or two containers are decoded.  The second of two is decoded, and the first kept aside, when the
    folders of the containers are listed in the order of their names. *)
Theorem C85_containers : forall os alnum valid auto other_dec inf (bytes : list N) n fuel depth sched order xfuel xsched (cs : list folder), unpack inf n fuel depth sched bytes = Ok cs ->
  let extract := extract_file os alnum valid auto other_dec inf n fuel depth sched order xfuel xsched bytes in
  let decoded := fun src dummy => match extract_tree os alnum valid auto other_dec xfuel xsched src with Ok (own, ss) => Ok (own, ss, dummy) | Err e => Err e end in
  listing_order order ->
  (length cs <> 1 -> length cs <> 2 -> extract = Err NotImplementedError)%nat /\
  (forall a : folder, cs = [a] -> extract = decoded a None) /\
  (forall a b : folder, cs = [a; b] -> order [([48], a); ([49], b)] = [([48], a); ([49], b)] -> extract = decoded b (Some a)).
Proof.
  intros os alnum valid auto other_dec inf bytes n fuel depth sched order xfuel xsched cs Hu extract decoded Hord. unfold extract, extract_file. rewrite Hu. cbn [bind]. split; [|split].
  - intros H1 H2. unfold choose. assert (length (numbered cs) = length cs) as -> by (unfold numbered; rewrite combine_length, map_length, seq_length; apply Nat.min_id).
    apply Nat.eqb_neq in H1, H2. rewrite H1, H2. reflexivity.
  - intros a ->. rewrite (single_choose order a Hord). cbn [bind]. unfold decoded. destruct (extract_tree os alnum valid auto other_dec xfuel xsched a) as [[own ss]|]; reflexivity.
  - intros a b -> Ho. unfold choose. change (numbered [a; b]) with [([48], a); ([49], b)]. rewrite Ho. cbn [length Nat.eqb orb negb rev app bind]. unfold decoded.
    change (dget c_zero [([48], a); ([49], b)]) with (Some a). cbn [bind]. destruct (extract_tree os alnum valid auto other_dec xfuel xsched b) as [[own ss]|]; reflexivity.
Qed.
Print Assumptions C85_containers.
(** Not in every order of listing: when the folder of the first is listed last, it is the one decoded, and the second
    leaves no trace in the sources. *)
Theorem C85_second_container_refuted : exists order : list (list N * folder) -> list (list N * folder), listing_order order /\
  forall os alnum valid auto other_dec inf (bytes : list N) n fuel depth sched xfuel xsched (a b b' : folder), unpack inf n fuel depth sched bytes = Ok [a; b] ->
  extract_file os alnum valid auto other_dec inf n fuel depth sched order xfuel xsched bytes =
    match extract_tree os alnum valid auto other_dec xfuel xsched a with Ok (own, ss) => Ok (own, ss, Some a) | Err e => Err e end /\
  forall bytes', unpack inf n fuel depth sched bytes' = Ok [a; b'] ->
    extract_file os alnum valid auto other_dec inf n fuel depth sched order xfuel xsched bytes' = extract_file os alnum valid auto other_dec inf n fuel depth sched order xfuel xsched bytes.
Proof.
  exists (@rev _). split; [intros l; apply Permutation_rev|]. intros os alnum valid auto other_dec inf bytes n fuel depth sched xfuel xsched a b b' Hu.
  assert (K : forall by' c, unpack inf n fuel depth sched by' = Ok [a; c] -> extract_file os alnum valid auto other_dec inf n fuel depth sched (@rev _) xfuel xsched by' =
    match extract_tree os alnum valid auto other_dec xfuel xsched a with Ok (own, ss) => Ok (own, ss, Some a) | Err e => Err e end).
  { intros by' c H. unfold extract_file. rewrite H. cbn [bind]. unfold choose. change (numbered [a; c]) with [([48], a); ([49], c)]. cbn [length Nat.eqb orb negb rev app bind].
    change (dget c_zero [([48], a); ([49], c)]) with (Some a). cbn [bind]. destruct (extract_tree os alnum valid auto other_dec xfuel xsched a) as [[own ss]|]; reflexivity. }
  split; [exact (K _ _ Hu)|]. intros bytes' Hu'. rewrite (K _ _ Hu'), (K _ _ Hu). reflexivity.
Qed.
Print Assumptions C85_second_container_refuted.

(** ** Examples *)
(** Files whose containers hold the configuration, the extension and the external report of the examples of C61, C63 and
    C75, stored without compression: the hypotheses are met.  The tasks end in the order that gives the listing [src]. *)
Fixpoint pick (names : list (list N)) (l : list (list N * list N)) : list (list N * list N) :=
  match names with [] => l | n :: ns => filter (fun e => str_eqb (fst e) n) l ++ pick ns (filter (fun e => negb (str_eqb (fst e) n)) l) end.
Lemma pick_perm names : any_order (pick names).
Proof.
  induction names as [|n ns IH]; intros l; [apply Permutation_refl|]. cbn [pick]. etransitivity; [|apply Permutation_app_head, IH]. clear.
  induction l as [|e l IH]; [apply Permutation_refl|]. cbn [filter]. destruct (str_eqb (fst e) n); cbn [negb app]; [constructor; exact IH|]. etransitivity; [apply perm_skip, IH|]. apply Permutation_middle.
Qed.
Definition w_time (p : list (list N)) : Z * Z := (0%Z, 1%Z).
Definition w_run (src : folder) : res (list folder) :=
  b <- pack id_deflate ex_digest Posix ex_stamp [([48], to_nodes w_time src)] ;; unpack id_inflater 3 80 0 (pick (dkeys src)) b.
Lemma w_bytes src : w_run src = Ok [src] -> exists bytes n fuel depth sched, unpack id_inflater n fuel depth sched bytes = Ok [src] /\ any_order sched.
Proof. unfold w_run. destruct (pack _ _ _ _ _) as [b|]; [|discriminate]. cbn [bind]. intros H. exists b, 3%nat, 80%nat, 0%nat, (pick (dkeys src)). split; [exact H|apply pick_perm]. Qed.
Definition w_name (n : list N) : bool := forallb (fun c => (0 <? c) && (c <? 55296)) n.
Definition w_tree (t : tree) : bool :=
  match t with
  | TFile d => negb (starts sig32 d)
  | TDir l => negb (Nat.eqb (length l) 0) && forallb (fun e => w_name (fst e) && match snd e with TFile d => negb (starts sig32 d) | TDir _ => false end) l
      && (fix nd (l : list (list N)) := match l with [] => true | x :: r => negb (existsb (str_eqb x) r) && nd r end) (map fst l)
      && (container_size layout32 (map (plain_entry 0 0) l) <? 2147483647)%Z
  end.
Lemma w_packable t : w_tree t = true -> packable t.
Proof.
  destruct t as [d|l]; cbn [w_tree packable]; intros H; [apply not_container, negb_true_iff, H|]. repeat (apply andb_true_iff in H; destruct H as [H ?]).
  split; [intros ->; discriminate|]. split; [apply nodup_names; assumption|]. split; [|apply Z.ltb_lt; assumption]. apply Forall_forall. intros [n t] Hin.
  match goal with K : forallb _ l = true |- _ => rewrite forallb_forall in K; specialize (K _ Hin); cbn [fst snd] in K; apply andb_true_iff in K; destruct K as [K1 K2] end.
  split; [apply name_ok, K1|]. destruct t as [d|]; [|discriminate]. exists d. split; [reflexivity|apply not_container, negb_true_iff, K2].
Qed.
Lemma w_names (src : folder) names : forallb (fun n => w_name n && match dget n src with Some t => w_tree t | None => false end && negb (existsb (str_eqb (n ++ ext_temp)) names)) names = true -> packable_names src names.
Proof.
  intros H n Hn. rewrite forallb_forall in H. specialize (H n Hn). repeat (apply andb_true_iff in H; destruct H as [H ?]). split; [apply name_ok, H|]. destruct (dget n src) as [t|]; [|discriminate]. split.
  - exists t. split; [reflexivity|apply w_packable; assumption].
  - intros l _ Q. assert (E : existsb (str_eqb (n ++ ext_temp)) names = true) by (apply existsb_exists; exists (n ++ ext_temp); split; [exact Q|apply str_eqb_refl]). match goal with K : negb _ = true |- _ => rewrite E in K; discriminate end.
Qed.
Example C83_processor_hypotheses_met : forall alnum left auto old_dec old_enc,
  (exists bytes n fuel depth sched, unpack id_inflater n fuel depth sched bytes = Ok [k_psrc] /\ any_order sched) /\
  proc_at Posix alnum (fun _ => true) auto k_psrc s_803 y_fu y_uuid y_name [(u "ru"%string, y_name)] y_note k_pdata (x_hdr y_uuid y_name) y_ver y_root k_pitems /\
  (forall x, In x k_pitems -> in_place Posix alnum (fun _ => true) (fun s => s) left auto old_dec old_enc k_cont s_803 k_psrc x) /\ different (fun s => s) k_pitems /\ own_names y_fu y_uuid (flat_map below k_pitems) /\
  let rest := root_own RProc y_fu y_uuid k_psrc ++ flat_map (it_files k_psrc) (flat_map below k_pitems) in few (f_versions :: rest) /\ packable_names k_psrc rest /\ stamps_ok ex_stamp (f_versions :: rest) /\
  times_ok w_time /\ (packed_size id_deflate ex_stamp w_time k_psrc < 2147483647)%Z.
Proof.
  intros alnum left auto old_dec old_enc. destruct (@C75_hypotheses_met alnum left auto old_dec old_enc) as (H1 & H2 & H3 & H4 & H5 & _).
  split; [apply w_bytes; vm_compute; reflexivity|]. split; [exact H1|]. split; [exact H2|]. split; [exact H3|]. split; [exact H4|]. split; [exact H5|]. split; [apply w_names; vm_compute; reflexivity|].
  split; [intros n Hn; vm_compute in Hn; repeat (destruct Hn as [<-|Hn]; [split; split; reflexivity || discriminate|]); destruct Hn|]. split; [intros p; split; split; reflexivity || discriminate|]. vm_compute. reflexivity.
Qed.
Lemma w_placed alnum left auto old_dec old_enc cont (src : folder) version : (forall n, In n (dkeys y_objects) -> dget n src = dget n y_objects) ->
  forall x, In x y_items -> in_place Posix alnum (fun _ => true) (fun s => s) left auto old_dec old_enc cont version src x.
Proof.
  intros Hs x [<-|[<-|[]]].
  - eapply in_simple with (locs := [(u "ru"%string, y_mname)]) (comment := y_note) (hdr := x_hdr y_mod_u y_mname).
    + vm_compute. tauto.
    + apply x_named; [reflexivity|discriminate].
    + constructor; [reflexivity|reflexivity|unfold x_hdr; do 6 eexists; reflexivity|apply nodup_strs; reflexivity|intros p []|].
      intros m n [E|[]]. assert (n = [48]) as -> by congruence. rewrite Hs by (vm_compute; tauto). exact y_module.
    + eapply y_file; [rewrite Hs by (vm_compute; tauto); reflexivity|brace_solve].
  - eapply in_simple with (locs := [(u "ru"%string, y_rname)]) (comment := y_note) (hdr := x_hdr y_role_u y_rname).
    + vm_compute. tauto.
    + apply x_named; [reflexivity|discriminate].
    + constructor; [reflexivity|reflexivity|unfold x_hdr; do 6 eexists; reflexivity|apply nodup_strs; reflexivity| |intros m n []].
      intros p [<-|[]]. right. exists [1; 2; 3]. rewrite Hs by (vm_compute; tauto). reflexivity.
    + eapply y_file; [rewrite Hs by (vm_compute; tauto); reflexivity|brace_solve].
Qed.
Example C83_configuration_hypotheses_met : forall alnum left auto old_dec old_enc cont,
  (exists bytes n fuel depth sched, unpack id_inflater n fuel depth sched bytes = Ok [y_csrc] /\ any_order sched) /\
  config_at Posix alnum (fun _ => true) auto y_csrc s_803 y_fu y_uuid y_name [(u "ru"%string, y_name)] y_note y_data (x_hdr y_uuid y_name) y_root y_ver y_items /\
  (forall x, In x y_items -> in_place Posix alnum (fun _ => true) (fun s => s) left auto old_dec old_enc cont s_803 y_csrc x) /\ different (fun s => s) y_items /\ own_names y_fu y_uuid (flat_map below y_items) /\
  let rest := root_own RConfig y_fu y_uuid y_csrc ++ flat_map (it_files y_csrc) (flat_map below y_items) in few (f_versions :: rest) /\ packable_names y_csrc rest /\ stamps_ok ex_stamp (f_versions :: rest) /\
  times_ok w_time /\ (packed_size id_deflate ex_stamp w_time y_csrc < 2147483647)%Z.
Proof.
  intros alnum left auto old_dec old_enc cont. destruct (@C61_hypotheses_met alnum auto) as (H1 & _ & H3 & H4 & H5 & _).
  split; [apply w_bytes; vm_compute; reflexivity|]. split; [exact H1|]. split; [apply w_placed; intros n Hn; repeat (destruct Hn as [<-|Hn]; [reflexivity|]); destruct Hn|]. split; [exact H3|]. split; [exact H4|]. split; [exact H5|]. split; [apply w_names; vm_compute; reflexivity|].
  split; [intros n Hn; vm_compute in Hn; repeat (destruct Hn as [<-|Hn]; [split; split; reflexivity || discriminate|]); destruct Hn|]. split; [intros p; split; split; reflexivity || discriminate|]. vm_compute. reflexivity.
Qed.
Definition w_info : list N := match bfile y_info with TFile bs => bs | TDir _ => [] end.
Definition w_info_text : list N := match utf8_decode w_info with Ok t => t | Err _ => [] end.
(** no occurrence of the mark, checked at every place *)
Fixpoint no_mark_in (m s : list N) : bool := negb (starts m s) && match s with [] => true | _ :: r => no_mark_in m r end.
Lemma no_mark_ok m s : no_mark_in m s = true -> ~ Spec_Pipeline.contains m s.
Proof.
  intros H (a & b & ->). revert H. induction a as [|c a IH]; cbn [app].
  - destruct (m ++ b) as [|c l] eqn:E; cbn [no_mark_in]; intros H; apply andb_true_iff in H; destruct H as [H _]; rewrite <- E in H;
      (assert (starts m (m ++ b) = true) as Q by (apply starts_spec; exists b; reflexivity)); rewrite Q in H; discriminate.
  - cbn [no_mark_in]. intros H. apply andb_true_iff in H. exact (IH (proj2 H)).
Qed.
Example C84_hypotheses_met : forall alnum left auto old_dec old_enc cont,
  (exists bytes n fuel depth sched, unpack id_inflater n fuel depth sched bytes = Ok [y_esrc] /\ any_order sched) /\ (forall d, sha1_text (ex_digest d)) /\
  ext_at Posix alnum (fun _ => true) auto y_esrc (u "80315"%string) y_fu y_uuid y_name [(u "ru"%string, y_name)] y_note y_data (x_hdr y_uuid y_name) y_vlist y_copy [VList [VStr [49]; z_]] y_product y_items /\ ~ In 13 y_product /\
  dget f_configinfo y_esrc = Some (TFile w_info) /\ unmarked Posix w_info /\
  (forall x, In x y_items -> in_place Posix alnum (fun _ => true) (fun s => s) left auto old_dec old_enc cont (u "80315"%string) y_esrc x) /\ different (fun s => s) y_items /\ own_names y_fu y_uuid (flat_map below y_items) /\
  let rest := y_fu :: here y_uuid y_esrc (numbers (root_class RExt)) ++ flat_map (it_files y_esrc) (flat_map below y_items) in few rest /\ packable_names y_esrc rest /\ stamps_ok ex_stamp (f_configinfo :: rest) /\
  times_ok w_time /\ (packed_size id_deflate ex_stamp w_time y_esrc < 2147483647)%Z.
Proof.
  intros alnum left auto old_dec old_enc cont. destruct (@C63_hypotheses_met alnum auto) as (H1 & _ & H3 & H4 & H5 & _).
  split; [apply w_bytes; vm_compute; reflexivity|]. split; [intros d; split; [reflexivity|]; apply Forall_forall; intros c Hc; apply repeat_spec in Hc; subst c; left; reflexivity|].
  split; [exact H1|]. split; [exact H5|]. split; [reflexivity|]. split.
  { exists w_info_text. split; [vm_compute; reflexivity|]. split; [intros Hc; assert (K : forallb (fun c => negb (c =? 13)) w_info_text = true) by (vm_compute; reflexivity); rewrite forallb_forall in K; apply K in Hc; discriminate|apply no_mark_ok; vm_compute; reflexivity]. }
  split; [apply w_placed; intros n Hn; repeat (destruct Hn as [<-|Hn]; [reflexivity|]); destruct Hn|]. split; [exact H3|]. split; [exact H4|]. split; [split; [apply y_fits; vm_compute; reflexivity|vm_compute; reflexivity]|]. split; [apply w_names; vm_compute; reflexivity|].
  split; [intros n Hn; vm_compute in Hn; repeat (destruct Hn as [<-|Hn]; [split; split; reflexivity || discriminate|]); destruct Hn|]. split; [intros p; split; split; reflexivity || discriminate|]. vm_compute. reflexivity.
Qed.
