(** C96: edited sources of a module.  Model: OrgCode.v.  Vocabulary: Spec_Code.v, Spec_CodeEdit.v. *)
From Coq Require Import String Lia.
From Verif Require Import PyBase PyInt PyText Paths OrgCode Spec_Code OrgCodeProofs OrgCodePaths OrgCodePack OrgCodeSplit Props_Code OrgTreePaths Spec_CodeEdit.
Open Scope list_scope.
Open Scope N_scope.

Lemma shows_drop l k : shows l k -> drop_directive l = k.
Proof. destruct 1; [apply drop_unmarked; assumption|apply drop_marked; assumption]. Qed.
Lemma in_files_own m ls fs : in_files m ls fs -> ls = own m /\ map (fun e => (fst e, fst (snd e))) (areas_of m) = map (fun e => (fst e, concat (snd e))) fs.
Proof.
  induction 1 as [|l k rest ls fs Hs _ [-> E]|o body c rest lb fb lr fr _ [-> Eb] _ [-> Er]|o body c rest lb fb lr fr _ [-> Eb] _ [-> Er]]; cbn [own areas_of map].
  - split; reflexivity.
  - rewrite (shows_drop _ _ Hs). split; [reflexivity|exact E].
  - split; [reflexivity|]. rewrite !map_app. congruence.
  - split; [reflexivity|]. cbn [fst snd]. rewrite !map_app. unfold name_on, keyof. change s_sep with a_sep. rewrite Eb, Er. reflexivity.
Qed.
Lemma write_same dest path file table a : forall st, (forall k data kind, In (k, (data, kind)) a -> written_area k kind = true -> dget (loc dest path file table k) st = Some data) ->
  forall x, dget x (write_areas dest path file table a st) = dget x st.
Proof.
  induction a as [|[k [data kind]] a IH]; intros st H x; [reflexivity|]. rewrite write_step.
  assert (E : forall y, dget y (if written_area k kind then dset (loc dest path file table k) data st else st) = dget y st).
  { intros y. destruct (written_area k kind) eqn:Ew; [|reflexivity]. destruct (list_eq_dec N.eq_dec y (loc dest path file table k)) as [->|Hne].
    - rewrite dget_dset_same. symmetry. exact (H k data kind (or_introl eq_refl) Ew).
    - apply dget_dset_other. exact Hne. }
  rewrite IH; [apply E|]. intros k0 data0 kind0 Hi Hw. rewrite E. exact (H k0 data0 kind0 (or_intror Hi) Hw).
Qed.

(** ** C96: what is in the sources is what the build takes, and what the next extraction leaves *)
(** If the files on the disk are the sources of a well nested module, whoever wrote them, the build gives the module, and
    splitting it changes no file.  Two areas may have one file. *)
Theorem C96_sources_stay : forall table dest path file m ns st,
  well_nested table None true m -> proper_lines (flatten m) -> names m ns -> NoDup (s_root :: ns) ->
  is_abs path = false -> ~ In 47 file -> (forall n, In n ns -> ~ In 47 (target table n)) ->
  sources_of table dest path file st m ->
  (forall fuel, (length ns < fuel)%nat -> pack_file fuel st dest path file table None = Ok (text_of m)) /\
  exists st', unpack_code_file dest path file table (text_of m) st = Ok st' /\ forall k, dget k st' = dget k st.
Proof.
  intros table dest path file m ns st Hw Hp Hns Hnd Habs Hfile Hsl (ls & fs & Hif & Hroot & Hfs). destruct (in_files_own _ _ _ Hif) as [-> Ea].
  pose proof (names_keys Hns) as Ek. assert (Hkr : NoDup (k_root :: keys m)) by (rewrite Ek; exact Hnd).
  assert (Hnr : ~ In k_root ns) by (inversion Hnd; assumption).
  assert (Hpl : forall k, In k ns -> place dest path table k = written (include_file table false (enter [] dest) path k)) by (intros k Hk; apply include_place; [exact Habs|apply Hsl; exact Hk]).
  assert (Hh : forall k data kind, In (k, (data, kind)) (areas_of m) -> In k ns /\ dget (place dest path table k) st = Some data).
  { intros k data kind Hi. assert (Hk : In k ns) by (rewrite <- Ek; apply in_map_iff; exists (k, (data, kind)); split; [reflexivity|exact Hi]). split; [exact Hk|].
    assert (Q : In (k, data) (map (fun e => (fst e, fst (snd e))) (areas_of m))) by (apply in_map_iff; exists (k, (data, kind)); split; [reflexivity|exact Hi]).
    rewrite Ea in Q. apply in_map_iff in Q. destruct Q as ([k0 l0] & E & Q). cbn in E. injection E as -> <-. rewrite (Hpl k Hk). exact (Hfs _ _ Q). }
  assert (Em : file_key dest path file = written (enter (enter [] dest) path ++ [file])) by (apply file_key_written; assumption).
  split.
  - intros fuel Hf. destruct fuel as [|fuel]; [lia|]. rewrite pack_file_go, Em, Hroot. rewrite lines_proper by (apply (sub_proper (own_sub Hw)); exact Hp).
    rewrite <- (app_nil_r (own m)). rewrite (@pack_code _ dest path table _ _ _ Hw).
    + cbn [pack_go bind]. rewrite app_nil_r. reflexivity.
    + rewrite Ek. lia.
    + reflexivity.
    + intros k data kind Hi. exact (proj2 (Hh _ _ _ Hi)).
    + exact Hp.
    + intros k Hk. apply Hsl. rewrite <- Ek. exact Hk.
  - unfold unpack_code_file. rewrite (unpack_text Hw Hp Hkr). eexists. split; [reflexivity|]. intros x. apply write_same. intros k data kind [E|Hi] _.
    + injection E as <- <- <-. unfold loc. rewrite str_eqb_refl, Em. exact Hroot.
    + destruct (Hh _ _ _ Hi) as [Hk Hd]. unfold loc. destruct (str_eqb k k_root) eqn:E; [apply str_eqb_spec in E; subst; contradiction|exact Hd].
Qed.
Print Assumptions C96_sources_stay.

(** *** What extraction writes is such a folder *)
Lemma in_files_ex table dd here m : well_nested table dd here m -> exists fs, in_files m (own m) fs.
Proof.
  induction 1 as [dd here|dd here l rest Hl Hw [fs IH]|dd here o body c rest Ho H1 H2 Hc Hmo Hmc Hb [fb IHb] Hr [fr IHr]|dd here o body c rest w name d Hh Hc Hmo Hmc Hn Hb [fb IHb] Hr [fr IHr]]; cbn [own].
  - exists []. constructor.
  - exists fs. constructor; [|exact IH]. destruct Hl as (_ & _ & [[Hm _]|(d & r & _ & _ & -> & Ha & Ho)]).
    + rewrite drop_unmarked by exact Hm. constructor. exact Hm.
    + rewrite drop_marked by assumption. constructor; assumption.
  - eexists. constructor; eassumption.
  - eexists. constructor; eassumption.
Qed.
Lemma good_file table dest path k : ~ In 47 (target table k) -> Forall (fun e => ~ In 47 e) (include_file table false (enter [] dest) path k) /\ include_file table false (enter [] dest) path k <> [].
Proof. intros H. rewrite <- include_bsl. apply include_good; [|exact H]. cbn. intros Q. repeat (destruct Q as [Q|Q]; [discriminate|]). exact Q. Qed.
Lemma good_root dest path file : ~ In 47 file -> Forall (fun e => ~ In 47 e) (enter (enter [] dest) path ++ [file]) /\ enter (enter [] dest) path ++ [file] <> [].
Proof.
  intros H. split; [|intros E; apply app_eq_nil in E; destruct E; discriminate]. apply Forall_app. split; [|constructor; [exact H|constructor]].
  assert (Q : nice (enter (enter [] dest) path)) by (apply nice_enter, nice_enter; constructor). eapply Forall_impl; [|exact Q]. intros ? [? ?]; assumption.
Qed.
Lemma nodup_map A B (f : A -> B) l : NoDup (map f l) -> forall x y, In x l -> In y l -> f x = f y -> x = y.
Proof.
  induction l as [|z l IH]; intros H x y Hx Hy E; [destruct Hx|]. cbn in H. inversion H as [|? ? H1 H2]; subst. destruct Hx as [->|Hx]; destruct Hy as [->|Hy]; [reflexivity| | |exact (IH H2 x y Hx Hy E)]; exfalso; apply H1; apply in_map_iff.
  - exists y. split; [symmetry; exact E|exact Hy].
  - exists x. split; [exact E|exact Hx].
Qed.
Lemma nodup_written (l : list (list (list N))) : NoDup l -> (forall g, In g l -> Forall (fun e => ~ In 47 e) g /\ g <> []) -> NoDup (map written l).
Proof.
  induction 1 as [|g l H1 _ IH]; intros H; [constructor|]. cbn. constructor; [|apply IH; intros x Hx; apply H; right; exact Hx].
  intros Q. apply in_map_iff in Q. destruct Q as (y & E & Hy). apply H1. destruct (H g (or_introl eq_refl)). destruct (H y (or_intror Hy)). replace g with y; [exact Hy|]. apply written_inj; assumption.
Qed.
Theorem C96_extraction_gives_sources : forall table dest path file m ns st st',
  well_nested table None true m -> proper_lines (flatten m) -> names m ns -> ~ In s_root ns ->
  is_abs path = false -> ~ In 47 file -> (forall n, In n ns -> ~ In 47 (target table n)) ->
  NoDup ((enter (enter [] dest) path ++ [file]) :: map (include_file table false (enter [] dest) path) ns) ->
  (forall a n data, unpack (text_of m) = Ok a -> In (n, (data, Some Includr)) a -> dget (written (include_file table false (enter [] dest) path n)) st = Some data) ->
  unpack_code_file dest path file table (text_of m) st = Ok st' -> sources_of table dest path file st' m.
Proof.
  intros table dest path file m ns st st' Hw Hp Hns Hr Habs Hfile Hsl Hnd Hro H.
  pose proof (names_keys Hns) as Ek. assert (Hnn : NoDup ns) by (apply NoDup_cons_iff in Hnd; eapply NoDup_map_inv; exact (proj2 Hnd)).
  assert (Hkr : NoDup (k_root :: keys m)) by (rewrite Ek; constructor; assumption). pose proof (unpack_text Hw Hp Hkr) as Hu.
  unfold unpack_code_file in H. rewrite Hu in H. set (a := (k_root, (concat (own m), None)) :: areas_of m) in *. assert (E0 : st' = write_areas dest path file table a st) by congruence. subst st'.
  assert (Em : loc dest path file table k_root = written (enter (enter [] dest) path ++ [file])) by (unfold loc; rewrite str_eqb_refl; apply file_key_written; assumption).
  assert (El : forall k, In k ns -> loc dest path file table k = written (include_file table false (enter [] dest) path k)).
  { intros k Hk. unfold loc. destruct (str_eqb k k_root) eqn:E; [apply str_eqb_spec in E; subst; contradiction|]. apply include_place; [exact Habs|apply Hsl; exact Hk]. }
  assert (Hnl : NoDup (map (fun e => loc dest path file table (fst e)) a)).
  { assert (E : map (fun e => loc dest path file table (fst e)) a = map written ((enter (enter [] dest) path ++ [file]) :: map (include_file table false (enter [] dest) path) ns)).
    { unfold a. cbn [map fst]. rewrite Em. f_equal. rewrite map_map. rewrite <- Ek. unfold keys. rewrite map_map. apply map_ext_in. intros [k v] Hi. apply El. rewrite <- Ek. apply in_map. exact Hi. }
    rewrite E. apply nodup_written; [exact Hnd|]. intros g [<-|Hg]; [apply good_root; exact Hfile|]. apply in_map_iff in Hg. destruct Hg as (k & <- & Hk). apply good_file. apply Hsl. exact Hk. }
  destruct (in_files_ex _ _ _ _ Hw) as (fs & Hif). destruct (in_files_own _ _ _ Hif) as [_ Ea]. exists (own m), fs. split; [exact Hif|]. split.
  - rewrite <- Em. rewrite (@write_get dest path file table a st Hnl k_root (concat (own m)) None (or_introl eq_refl)). reflexivity.
  - intros n ls Hi. assert (Q : In (n, concat ls) (map (fun e => (fst e, fst (snd e))) (areas_of m))) by (rewrite Ea; apply in_map_iff; exists (n, ls); split; [reflexivity|exact Hi]).
    apply in_map_iff in Q. destruct Q as ([n0 [data kind]] & E & Q). cbn in E. injection E as -> ->. assert (Hn : In n ns) by (rewrite <- Ek; apply in_map_iff; exists (n, (concat ls, kind)); split; [reflexivity|exact Q]).
    rewrite <- (El n Hn), (@write_get dest path file table a st Hnl n (concat ls) kind (or_intror Q)). destruct kind as [[|]|]; unfold written_area; rewrite ?orb_true_r; try reflexivity.
    destruct (str_eqb n k_root) eqn:E; [reflexivity|]. cbn [orb]. rewrite (El n Hn). apply (Hro a n (concat ls) Hu). right. exact Q.
Qed.
Print Assumptions C96_extraction_gives_sources.

(** *** One area is edited *)
Lemma edited_files x new m m' : edited x new m m' -> forall ln fn ls fs, in_files new ln fn -> in_files m ls fs ->
  exists fs', in_files m' ls fs' /\ forall n l, In (n, l) fs' -> (n = x /\ l = ln) \/ (n <> x /\ In (n, l) fs) \/ In (n, l) fn.
Proof.
  induction 1 as [|l0 rest rest' He IH|o body c rest body' rest' He1 IH1 He2 IH2|o body c rest rest' Hx He IH|o body c rest body' rest' Hx He1 IH1 He2 IH2]; intros ln fn ls fs Hn Hm; inversion Hm; subst.
  - exists []. split; [constructor|intros n l []].
  - destruct (IH _ _ _ _ Hn H4) as (fs' & A & B). exists fs'. split; [constructor; assumption|exact B].
  - destruct (IH1 _ _ _ _ Hn H5) as (f1 & A1 & B1). destruct (IH2 _ _ _ _ Hn H6) as (f2 & A2 & B2). exists (f1 ++ f2). split; [constructor; assumption|]. intros n l Hi. apply in_app_or in Hi.
    destruct Hi as [Hi|Hi]; [destruct (B1 _ _ Hi) as [Q|[[Q1 Q2]|Q]]|destruct (B2 _ _ Hi) as [Q|[[Q1 Q2]|Q]]]; try (left; exact Q); try (right; right; exact Q); right; left; (split; [exact Q1|apply in_or_app]); [left|right]; exact Q2.
  - destruct (IH _ _ _ _ Hn H6) as (f2 & A2 & B2). eexists. split; [constructor; [exact Hn|exact A2]|]. intros n l [E|Hi]; [injection E as <- <-; left; split; reflexivity|]. apply in_app_or in Hi. destruct Hi as [Hi|Hi]; [right; right; exact Hi|].
    destruct (B2 _ _ Hi) as [Q|[[Q1 Q2]|Q]]; [left; exact Q|right; left; split; [exact Q1|right; apply in_or_app; right; exact Q2]|right; right; exact Q].
  - destruct (IH1 _ _ _ _ Hn H5) as (f1 & A1 & B1). destruct (IH2 _ _ _ _ Hn H6) as (f2 & A2 & B2). eexists. split; [constructor; [exact A1|exact A2]|]. intros n l [E|Hi].
    + injection E as <- <-. right. left. split; [exact Hx|left; reflexivity].
    + apply in_app_or in Hi. destruct Hi as [Hi|Hi]; [destruct (B1 _ _ Hi) as [Q|[[Q1 Q2]|Q]]|destruct (B2 _ _ Hi) as [Q|[[Q1 Q2]|Q]]]; try (left; exact Q); try (right; right; exact Q); right; left; (split; [exact Q1|right; apply in_or_app]); [left|right]; exact Q2.
Qed.
(** The file of the area [x] is replaced by the lines of [new]; the files of areas inside [new] are there.  The build gives the
    module with the new lines, and splitting it changes no file: what was edited is kept. *)
Theorem C96_edited_area_kept : forall table dest path file m m' ns' x new ln fn st,
  edited x new m m' -> in_files new ln fn ->
  well_nested table None true m' -> proper_lines (flatten m') -> names m' ns' -> ~ In s_root ns' -> In x ns' ->
  is_abs path = false -> ~ In 47 file -> (forall n, In n ns' -> ~ In 47 (target table n)) ->
  NoDup ((enter (enter [] dest) path ++ [file]) :: map (include_file table false (enter [] dest) path) ns') ->
  sources_of table dest path file st m ->
  (forall n ls, In (n, ls) fn -> n <> x /\ dget (written (include_file table false (enter [] dest) path n)) st = Some (concat ls)) ->
  let st1 := dset (written (include_file table false (enter [] dest) path x)) (concat ln) st in
  (forall fuel, (length ns' < fuel)%nat -> pack_file fuel st1 dest path file table None = Ok (text_of m')) /\
  exists st2, unpack_code_file dest path file table (text_of m') st1 = Ok st2 /\ forall k, dget k st2 = dget k st1.
Proof.
  intros table dest path file m m' ns' x new ln fn st He Hn Hw Hp Hns Hr Hx Habs Hfile Hsl Hnd (ls & fs & Hif & Hroot & Hfs) Hin st1.
  destruct (edited_files _ _ _ _ He _ _ _ _ Hn Hif) as (fs' & A & B). destruct (in_files_own _ _ _ A) as [_ Ea]. pose proof (names_keys Hns) as Ek.
  apply NoDup_cons_iff in Hnd. destruct Hnd as [N1 N2]. assert (Hnn : NoDup ns') by (eapply NoDup_map_inv; exact N2).
  assert (Hks : forall n l, In (n, l) fs' -> In n ns').
  { intros n l Hi. assert (Q : In (n, concat l) (map (fun e => (fst e, fst (snd e))) (areas_of m'))) by (rewrite Ea; apply in_map_iff; exists (n, l); split; [reflexivity|exact Hi]).
    apply in_map_iff in Q. destruct Q as (e & E & Q). rewrite <- Ek. apply in_map_iff. exists e. split; [|exact Q]. injection E as E _. exact E. }
  assert (Hoth : forall g, Forall (fun e => ~ In 47 e) g -> g <> [] -> g <> include_file table false (enter [] dest) path x -> dget (written g) st1 = dget (written g) st).
  { intros g G1 G2 G3. unfold st1. apply dget_dset_other. intros E. apply G3. destruct (good_file table dest path x (Hsl x Hx)). apply written_inj; assumption. }
  apply C96_sources_stay with (ns := ns'); try assumption.
  - constructor; assumption.
  - exists ls, fs'. split; [exact A|]. destruct (good_root dest path file Hfile) as [R1 R2]. split.
    + rewrite Hoth; [exact Hroot|exact R1|exact R2|]. intros E. apply N1. apply in_map_iff. exists x. split; [symmetry; exact E|exact Hx].
    + intros n l Hi. pose proof (Hks _ _ Hi) as Hni. destruct (good_file table dest path n (Hsl n Hni)) as [G1 G2].
      assert (Hne : n <> x -> include_file table false (enter [] dest) path n <> include_file table false (enter [] dest) path x) by (intros Q E; apply Q; exact (nodup_map _ _ _ _ N2 _ _ Hni Hx E)).
      destruct (B _ _ Hi) as [[-> ->]|[[Q1 Q2]|Q]].
      * unfold st1. apply dget_dset_same.
      * rewrite Hoth; [exact (Hfs _ _ Q2)|exact G1|exact G2|exact (Hne Q1)].
      * destruct (Hin _ _ Q) as [Q1 Q2]. rewrite Hoth; [exact Q2|exact G1|exact G2|exact (Hne Q1)].
Qed.
Print Assumptions C96_edited_area_kept.

(** ** A case: the module of Props_Code.v; its area with a directive is edited, keeping the area inside *)
Definition n_common : list N := Eval vm_compute in u "Общее".
Definition l_lib_o : list N := Eval vm_compute in ln "#Область include_core_util_lib".
Definition l_lib_b : list N := Eval vm_compute in ln "В = 1;".
Definition l_end : list N := Eval vm_compute in ln "#КонецОбласти".
Definition l_new : list N := Eval vm_compute in ln "Процедура Д()".
Definition l_marked : list N := Eval vm_compute in ln "&НаКлиенте //DynamicDirective 7".
Definition l_mark : list N := Eval vm_compute in ln "//DynamicDirective 7".
Definition ex_new : code := Line l_new (Area l_lib_o (Line l_lib_b End) l_end (Line l_marked End)).
Definition ex_edited : code := Eval vm_compute in
  Region (ln "#Область Сервис") (Line (ln "Перем А;") (Area (ln "  #Область include_Общее //&НаКлиенте") ex_new
      (ln "  #КонецОбласти // Общее") End)) (ln "#КонецОбласти")
  (Area (ln "#Область includr_core_ro") (Line (ln "Г = 2;") End) (ln "#КонецОбласти")
  (Area (ln "#Область include_local") End (ln "#КонецОбласти") (Line (u "Конец") End))).
Definition ex_st : store := Eval vm_compute in match unpack_code_file ex_dest ex_path ex_file ex_table (text_of ex_module) ex_store with Ok s => s | Err _ => [] end.
Lemma ex_marked_ok : In 38 l_marked /\ ~ occurs_in (32 :: s_mark) l_mark.
Proof. split; [left; reflexivity|]. intros H. apply (@rfind_some _ _ H). vm_compute. reflexivity. Qed.
Lemma ex_shows : shows l_marked l_mark.
Proof. refine (@sh_mark (firstn 10 l_marked) (skipn 18 l_mark) _ _); apply ex_marked_ok. Qed.
Lemma shows_same l : rfind_sub (32 :: s_mark) l = None -> shows l l.
Proof. intros H. apply sh_same. apply unmarked_b. exact H. Qed.
Example ex_edited_well_nested : well_nested ex_table None true ex_edited.
Proof.
  unfold ex_edited.
  apply wn_region; try reflexivity; try (apply unmarked_b; reflexivity).
  - apply wn_line; [apply plain_intro; reflexivity|].
    apply wn_area with (w := true) (name := u "Общее"%string) (d := Some (u "&НаКлиенте"%string)); try reflexivity; try (apply unmarked_b; reflexivity); try apply wn_end.
    + eapply header_intro; [discriminate|reflexivity|reflexivity|]. vm_compute. repeat split. discriminate.
    + left. reflexivity.
    + apply wn_line; [apply plain_intro; reflexivity|].
      apply wn_area with (w := true) (name := u "core_util_lib"%string) (d := None); try reflexivity; try (apply unmarked_b; reflexivity).
      * eapply header_intro; [discriminate|reflexivity|reflexivity|reflexivity].
      * right. apply mem_ch_in. reflexivity.
      * apply wn_line; [apply plain_intro; reflexivity|apply wn_end].
      * apply wn_line; [|apply wn_end]. split; [unfold opens; vm_compute; discriminate|]. split; [unfold closes; vm_compute; discriminate|]. right.
        exists (u "&НаКлиенте"%string), (skipn 18 l_mark). split; [reflexivity|]. split; [discriminate|]. split; [reflexivity|]. exact ex_marked_ok.
  - apply wn_area with (w := false) (name := u "core_ro"%string) (d := None); try reflexivity; try (apply unmarked_b; reflexivity).
    + eapply header_intro; [discriminate|reflexivity|reflexivity|reflexivity].
    + right. apply mem_ch_in. reflexivity.
    + apply wn_line; [apply plain_intro; reflexivity|apply wn_end].
    + apply wn_area with (w := true) (name := u "local"%string) (d := None); try reflexivity; try (apply unmarked_b; reflexivity); try apply wn_end.
      * eapply header_intro; [discriminate|reflexivity|reflexivity|reflexivity].
      * left. reflexivity.
      * apply wn_line; [apply plain_intro; reflexivity|apply wn_end].
Qed.
Example ex_edited_names : names ex_edited ex_names.
Proof.
  unfold ex_edited, ex_names.
  change [u "Общее"%string; u "core_util_lib"%string; u "core_ro"%string; u "local"%string]
    with (((u "Общее"%string) :: ([u "core_util_lib"%string] ++ [])) ++ (u "core_ro"%string :: [] ++ (u "local"%string :: [] ++ []))).
  apply nm_region.
  - apply nm_line. apply nm_area with (w := true) (d := Some (u "&НаКлиенте"%string)); [eapply header_intro; [discriminate|reflexivity|reflexivity|vm_compute; repeat split; discriminate]| |apply nm_end].
    apply nm_line. apply nm_area with (w := true) (d := None) (ns := []) (ns' := []); [eapply header_intro; [discriminate|reflexivity|reflexivity|reflexivity]|apply nm_line; apply nm_end|apply nm_line; apply nm_end].
  - apply nm_area with (w := false) (d := None); [eapply header_intro; [discriminate|reflexivity|reflexivity|reflexivity]|apply nm_line, nm_end|].
    apply nm_area with (w := true) (d := None); [eapply header_intro; [discriminate|reflexivity|reflexivity|reflexivity]|apply nm_end|apply nm_line, nm_end].
Qed.
Lemma proper_by (ls : list (list N)) : forallb (fun l => match rev l with c :: r => (c =? 10) && negb (mem_ch 10 r) | [] => false end) ls = true -> forall z, z <> [] -> ~ In 10 z -> proper_lines (ls ++ [z]).
Proof.
  intros H z Hz Hn a x b E. destruct b as [|y b].
  - right. split; [reflexivity|]. apply app_inj_tail in E. destruct E as [_ <-]. split; assumption.
  - left. assert (Hi : In x ls). { assert (E2 : ls = a ++ x :: removelast (y :: b)) by (apply (f_equal (@removelast _)) in E; rewrite removelast_last in E; rewrite E; rewrite removelast_app by discriminate; reflexivity). rewrite E2. apply in_or_app. right. left. reflexivity. }
    rewrite forallb_forall in H. specialize (H x Hi). destruct (rev x) as [|c r] eqn:Er; [discriminate|]. apply andb_true_iff in H. destruct H as [Hc Hm]. apply N.eqb_eq in Hc. subst c. apply negb_true_iff in Hm.
    exists (rev r). rewrite <- (rev_involutive x), Er. split; [reflexivity|]. intros Q. apply in_rev in Q. apply mem_ch_in in Q. congruence.
Qed.

Example C96_case : forall st, (forall k, dget k st = dget k ex_st) ->
  let st1 := dset (u "/p/core/Общее.bsl") (l_new ++ l_lib_o ++ l_end ++ l_mark) st in
  pack_file 5 st1 ex_dest ex_path ex_file ex_table None = Ok (text_of ex_edited) /\ exists st2, unpack_code_file ex_dest ex_path ex_file ex_table (text_of ex_edited) st1 = Ok st2 /\ forall k, dget k st2 = dget k st1.
Proof.
  intros st Hst.
  assert (Hs : sources_of ex_table ex_dest ex_path ex_file st ex_module).
  { assert (Q : sources_of ex_table ex_dest ex_path ex_file ex_st ex_module).
    { apply (@C96_extraction_gives_sources ex_table ex_dest ex_path ex_file ex_module ex_names ex_store ex_st C30_ex_well_nested).
      - refine (@proper_by (removelast (flatten ex_module)) _ (u "Конец") _ _); [vm_compute; reflexivity|discriminate|intros Q; apply mem_ch_in in Q; vm_compute in Q; discriminate].
      - exact C30_ex_names.
      - intros Q. vm_compute in Q. repeat (destruct Q as [Q|Q]; [discriminate|]). destruct Q.
      - reflexivity.
      - intros Q. apply mem_ch_in in Q. vm_compute in Q. discriminate.
      - intros n Q. repeat (destruct Q as [<-|Q]; [intros Q2; apply mem_ch_in in Q2; vm_compute in Q2; discriminate|]). destruct Q.
      - apply (@NoDup_map_inv _ _ written). apply nodup_strs. vm_compute. reflexivity.
      - intros a n data Ha Hi. assert (Ea : a = match unpack (text_of ex_module) with Ok a => a | Err _ => [] end) by (rewrite Ha; reflexivity). vm_compute in Ea. subst a. repeat (destruct Hi as [E|Hi]; [apply pair_equal_spec in E; destruct E as [<- E]; apply pair_equal_spec in E; destruct E as [<- E]; first [discriminate E|vm_compute; reflexivity]|]). destruct Hi.
      - vm_compute. reflexivity. }
    destruct Q as (o & f & A & B & C). exists o, f. split; [exact A|]. split; [rewrite Hst; exact B|]. intros n ls Hi. rewrite Hst. exact (C n ls Hi). }
  assert (E : u "/p/core/Общее.bsl" = written (include_file ex_table false (enter [] ex_dest) ex_path n_common) /\ l_new ++ l_lib_o ++ l_end ++ l_mark = concat [l_new; l_lib_o; l_end; l_mark]) by (split; vm_compute; reflexivity).
  cbv zeta. destruct E as [-> ->].
  destruct (@C96_edited_area_kept ex_table ex_dest ex_path ex_file ex_module ex_edited ex_names n_common ex_new [l_new; l_lib_o; l_end; l_mark] [(u "core_util_lib", [l_lib_b])] st) as [P1 P2].
  - unfold ex_module, ex_edited. apply ed_region; [apply ed_line; apply ed_here; [vm_compute; reflexivity|apply ed_end]|].
    apply ed_inside; [vm_compute; discriminate|apply ed_line; apply ed_end|]. apply ed_inside; [vm_compute; discriminate|apply ed_end|]. apply ed_line. apply ed_end.
  - apply if_line; [apply shows_same; vm_compute; reflexivity|]. change [(u "core_util_lib", [l_lib_b])] with ((name_on l_lib_o, [l_lib_b]) :: [] ++ []). apply if_area; [apply if_line; [apply shows_same; vm_compute; reflexivity|apply if_end]|]. apply if_line; [exact ex_shows|apply if_end].
  - exact ex_edited_well_nested.
  - refine (@proper_by (removelast (flatten ex_edited)) _ (u "Конец") _ _); [vm_compute; reflexivity|discriminate|intros Q; apply mem_ch_in in Q; vm_compute in Q; discriminate].
  - exact ex_edited_names.
  - intros Q. vm_compute in Q. repeat (destruct Q as [Q|Q]; [discriminate|]). destruct Q.
  - left. reflexivity.
  - reflexivity.
  - intros Q. apply mem_ch_in in Q. vm_compute in Q. discriminate.
  - intros n Q. repeat (destruct Q as [<-|Q]; [intros Q2; apply mem_ch_in in Q2; vm_compute in Q2; discriminate|]). destruct Q.
  - apply (@NoDup_map_inv _ _ written). apply nodup_strs. vm_compute. reflexivity.
  - exact Hs.
  - intros n ls [E|[]]. apply pair_equal_spec in E. destruct E as [<- <-]. split; [vm_compute; discriminate|]. rewrite Hst. vm_compute. reflexivity.
  - split; [apply P1; vm_compute; repeat constructor|exact P2].
Qed.

(** ** What does not hold *)
Definition e_root : list N := Eval vm_compute in ln "#Область include_core_x" ++ ln "#КонецОбласти" ++ ln "Хвост = 1;".
Definition k_x : list N := Eval vm_compute in u "/p/core/x.bsl".
Definition k_m : list N := Eval vm_compute in u "/p/src/Catalog/Товары/Module.bsl".
(** The sources are built and extracted again: what comes to be in the two files. *)
Definition again (st : store) : res (option (list N) * option (list N)) :=
  t <- pack_file 3 st ex_dest ex_path ex_file [] None ;; st' <- unpack_code_file ex_dest ex_path ex_file [] t st ;; Ok (dget k_m st', dget k_x st').
(** The last line of an edited area has no newline, as editors leave it: the closing of the area is glued to it, the area is never
    closed, and the rest of the module moves to the file of the area.  Nothing fails. *)
Theorem C96_no_final_newline_refuted : again [(k_m, e_root); (k_x, u "А = 1;")] = Ok (Some (ln "#Область include_core_x"), Some (ln "А = 1;#КонецОбласти" ++ ln "Хвост = 1;")).
Proof. vm_compute. reflexivity. Qed.
Print Assumptions C96_no_final_newline_refuted.
(** A closing too many in an edited area: what follows it moves to the module. *)
Theorem C96_unbalanced_area_refuted : again [(k_m, e_root); (k_x, ln "А = 1;" ++ ln "#КонецОбласти" ++ ln "Б = 2;")] =
  Ok (Some (ln "#Область include_core_x" ++ ln "#КонецОбласти" ++ ln "Б = 2;" ++ ln "#КонецОбласти" ++ ln "Хвост = 1;"), Some (ln "А = 1;")).
Proof. vm_compute. reflexivity. Qed.
Print Assumptions C96_unbalanced_area_refuted.
(** A directive typed before the mark in the sources is built, and the next extraction takes it out. *)
Theorem C96_typed_directive_refuted : again [(k_m, e_root); (k_x, ln "&НаСервере //DynamicDirective")] = Ok (Some e_root, Some (ln "//DynamicDirective")).
Proof. vm_compute. reflexivity. Qed.
Print Assumptions C96_typed_directive_refuted.
