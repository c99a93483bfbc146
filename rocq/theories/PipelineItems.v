(** The container pipeline for files and one-level folders (Spec_Pipeline.v) when configinfo is among
    them: lemmas. *)
From Coq Require Import String Permutation.
From Verif Require Import PyBase PyInt Utf PyFile PyText PyB64 Brace Spec_Brace BraceProofs BraceMore Container Spec_Container ContainerHex ContainerToc ContainerProofs ContainerMore ContainerDefects ContainerBounds.
From Verif Require Import Pipeline Spec_Pipeline PipelineProofs PipelineMore.
Open Scope list_scope.
Open Scope Z_scope.

Definition stored_pair (deflate : list N -> list N) (i : item) : list N * list N := (i_name i, stored deflate i).

(** what is compressed comes back *)
Lemma unpack_items deflate inf items files bytes N1 :
  NoDup (map i_name items) -> Forall valid_item items -> Forall (codec_fits deflate inf) items ->
  (forall n es, In (Sub n es) items -> ~ In (n ++ ext_temp) (map i_name items)) ->
  Permutation (map (stored_pair deflate) items) files ->
  (forall n fuel, (2 <= n)%nat -> (N1 <= fuel)%nat -> extract_all n fuel bytes = Ok [files]) ->
  exists N, forall sched n fuel depth, (forall l, Permutation l (sched l)) -> (2 <= n)%nat -> (N <= fuel)%nat ->
       exists items' fo, Permutation items items' /\ Forall2 comes_back items' fo /\ unpack inf n fuel depth sched bytes = Ok [fo].
Proof.
  intros Hnd Hvi Hcf Htmp Hpf HX.
  assert (HN : exists N, Forall (fun i => exists r, comes_back i r /\ forall depth fuel, (N <= fuel)%nat ->
       task_ok inf depth fuel (map i_name items) (i_name i, stored deflate i) (snd r)) items).
  { apply (@fuel_bound item (fun N i => exists r, comes_back i r /\ forall depth fuel, (N <= fuel)%nat -> task_ok inf depth fuel (map i_name items) (i_name i, stored deflate i) (snd r))).
    - intros a b x Hab (r & H1 & H2). exists r. split; [exact H1|]. intros depth fuel Hf. apply H2. lia.
    - apply Forall_forall. intros i Hi. pose proof (proj1 (Forall_forall _ _) Hvi i Hi) as Hv. pose proof (proj1 (Forall_forall _ _) Hcf i Hi) as Hc.
      destruct i as [e|n es]; cbn [valid_item codec_fits] in Hv, Hc.
      + exists O, (file_tree e). split; [constructor|]. intros depth fuel _. exists (e_data e), false. cbn [stored i_name snd file_tree].
        split; [apply inflate_plain; assumption|reflexivity].
      + destruct Hv as (Hv & Hns & Hs). destruct (sub_ok deflate es Hv Hs) as (f & es' & N & B & Hsig & S & HT).
        exists N, (n, TDir (map file_tree es')). split; [constructor; exact S|]. intros depth fuel Hfu.
        exists (fdata f), true. cbn [stored i_name snd fst]. rewrite B. split; [apply inflate_container; [apply Hc|exact Hsig]|].
        split; [apply (Htmp n es Hi)|]. exists (map file_tree es'). split; [apply HT; assumption|reflexivity]. }
  destruct HN as [N2 HN]. exists (Nat.max N1 N2).
  intros sched n fuel depth Hperm Hn Hfu. unfold unpack. rewrite HX by lia. cbn [bind decompress_all].
  assert (Hpi : Permutation (map (stored_pair deflate) items) (sched files)) by (transitivity files; [exact Hpf|apply Hperm]).
  apply Permutation_sym in Hpi. apply Permutation_map_inv in Hpi. destruct Hpi as (items' & Eq & Hp').
  rewrite Eq.
  assert (HN' : Forall (fun i => exists r, comes_back i r /\ task_ok inf depth fuel (map i_name items) (i_name i, stored deflate i) (snd r)) items').
  { apply (Permutation_Forall Hp'). eapply Forall_impl; [|exact HN]. intros i (r & A & B). exists r. split; [exact A|apply B; lia]. }
  assert (HR : exists rs, Forall2 comes_back items' rs /\ Forall2 (fun i r => task_ok inf depth fuel (map i_name items) (i_name i, stored deflate i) (snd r)) items' rs).
  { clear - HN'. induction HN' as [|i l (r & A & B) Hl (rs & IH1 & IH2)]; [exists []; split; constructor|].
    exists (r :: rs). split; constructor; assumption. }
  destruct HR as (rs & R1 & R2).
  assert (HD : forall its rs fo, Forall2 comes_back its rs -> Forall2 (fun i r => task_ok inf depth fuel (map i_name items) (i_name i, stored deflate i) (snd r)) its rs ->
    NoDup (map fst fo ++ map i_name its) -> incl (map fst fo ++ map i_name its) (map i_name items) ->
    decompress_tasks inf depth fuel (map (stored_pair deflate) its) fo = Ok (fo ++ rs)).
  { clear. intros its rs fo A. revert fo. induction A as [|i r its rs Hir A IH]; intros fo B Hnd Hi.
    - cbn. rewrite app_nil_r. reflexivity.
    - inversion B as [|i' r' l l' B1 B2]; subst.
      assert (Hname : fst r = i_name i) by (destruct Hir; reflexivity).
      pose proof (@tasks_ok inf depth fuel (map i_name items) [(i_name i, stored deflate i)] (fun _ => snd r) fo) as T.
      cbn [map fst] in T. cbn [map decompress_tasks] in *.
      assert (Hincl : incl (map fst fo ++ [i_name i]) (map i_name items)).
      { intros x Hx. apply Hi. apply in_app_or in Hx. apply in_or_app. destruct Hx as [Hx|[<-|[]]]; [left; exact Hx|right; left; reflexivity]. }
      assert (Hnd1 : NoDup (map fst fo ++ [i_name i])).
      { replace (i_name i :: map i_name its) with ([i_name i] ++ map i_name its) in Hnd by reflexivity. rewrite app_assoc in Hnd. apply nodup_left in Hnd. exact Hnd. }
      specialize (T Hnd1 Hincl). assert (HF : Forall (fun t => task_ok inf depth fuel (map i_name items) t (snd r)) [(i_name i, stored deflate i)]) by (constructor; [exact B1|constructor]). specialize (T HF).
      change (stored_pair deflate i) with (i_name i, stored deflate i).
      destruct (decompress_task inf depth fuel (i_name i, stored deflate i) fo) as [fo'|e] eqn:E; cbn [bind] in *; [|discriminate].
      injection T as ->. rewrite IH.
      + rewrite <- app_assoc. cbn [app]. rewrite <- Hname. rewrite <- surjective_pairing. reflexivity.
      + exact B2.
      + rewrite map_app. cbn [map fst]. rewrite <- app_assoc. exact Hnd.
      + rewrite map_app. cbn [map fst]. rewrite <- app_assoc. exact Hi. }
  exists items', rs. split; [exact Hp'|]. split; [exact R1|].
  rewrite (HD items' rs [] R1 R2).
  - reflexivity.
  - cbn [map app]. apply (Permutation_NoDup (Permutation_map i_name Hp')). exact Hnd.
  - cbn [map app]. intros x Hx. apply (Permutation_in _ (Permutation_sym (Permutation_map i_name Hp'))). exact Hx.
Qed.

(** ** sorting and compressing items *)
Lemma stored_names deflate items : map fst (map (stored_pair deflate) items) = map i_name items.
Proof. rewrite map_map. reflexivity. Qed.
Lemma compress_items deflate items : Forall valid_item items -> compress_entries deflate (map item_node items) = Ok (map (stored_pair deflate) items).
Proof.
  induction 1 as [|i items Hi H IH]; [reflexivity|]. cbn [map]. rewrite (surjective_pairing (item_node i)). cbn [compress_entries].
  rewrite (stored_ok deflate i Hi). cbn [bind]. rewrite IH. cbn [bind]. rewrite item_name. reflexivity.
Qed.
Lemma sort_items items : NoDup (map i_name items) -> exists items', Permutation items items' /\ ascending (map i_name items') /\ sort_names (map item_node items) = map item_node items'.
Proof.
  intros Hnd. pose proof (sort_by_perm (fun x y : list N * node => str_leb (fst x) (fst y)) (map item_node items)) as Hp. fold (sort_names (map item_node items)) in Hp.
  apply Permutation_sym in Hp. apply Permutation_map_inv in Hp. destruct Hp as (items' & E & Hp). exists items'. split; [exact Hp|]. split; [|exact E].
  assert (A : ascending (map fst (sort_names (map item_node items)))) by (apply sort_names_ascending; rewrite map_map; erewrite map_ext; [exact Hnd|exact item_name]).
  rewrite E, map_map in A. erewrite map_ext in A; [exact A|exact item_name].
Qed.
Lemma dget_items items i : NoDup (map i_name items) -> In i items -> dget (i_name i) (map item_node items) = Some (snd (item_node i)).
Proof.
  induction items as [|x items IH]; intros Hnd Hin; [destruct Hin|]. inversion Hnd as [|y l Hy Hl]; subst. cbn [map].
  rewrite (surjective_pairing (item_node x)), item_name. cbn [dget].
  destruct (str_eqb (i_name i) (i_name x)) eqn:E.
  - destruct Hin as [->|Hin]; [reflexivity|]. apply str_eqb_spec in E. exfalso. apply Hy. rewrite <- E. apply in_map, Hin.
  - destruct Hin as [->|Hin]; [rewrite str_eqb_refl in E; discriminate|]. apply IH; assumption.
Qed.
Lemma dget_stored deflate items i : NoDup (map i_name items) -> In i items -> dget (i_name i) (map (stored_pair deflate) items) = Some (stored deflate i).
Proof.
  induction items as [|x items IH]; intros Hnd Hin; [destruct Hin|]. inversion Hnd as [|y l Hy Hl]; subst. cbn [map dget stored_pair].
  destruct (str_eqb (i_name i) (i_name x)) eqn:E.
  - destruct Hin as [->|Hin]; [reflexivity|]. apply str_eqb_spec in E. exfalso. apply Hy. rewrite <- E. apply in_map, Hin.
  - destruct Hin as [->|Hin]; [rewrite str_eqb_refl in E; discriminate|]. apply IH; assumption.
Qed.
(** the item with the data of configinfo replaced *)
Definition put_data (ce : entry) (new : list N) (i : item) : item := if str_eqb (i_name i) (e_name ce) then Plain (with_data ce new) else i.
Lemma put_name ce new i : i_name (put_data ce new i) = i_name i.
Proof. unfold put_data. destruct (str_eqb (i_name i) (e_name ce)) eqn:E; [|reflexivity]. apply str_eqb_spec in E. symmetry. exact E. Qed.
Lemma put_names ce new l : map i_name (map (put_data ce new) l) = map i_name l.
Proof. rewrite map_map. apply map_ext. intros i. apply put_name. Qed.
Lemma put_other ce new l : ~ In (e_name ce) (map i_name l) -> map (put_data ce new) l = l.
Proof.
  intros H. rewrite <- (map_id l) at 2. apply map_ext_in. intros i Hi. unfold put_data.
  replace (str_eqb (i_name i) (e_name ce)) with false; [reflexivity|]. symmetry. apply str_eqb_neq. intros E. apply H. rewrite <- E. apply in_map, Hi.
Qed.
Lemma put_here ce new : put_data ce new (Plain ce) = Plain (with_data ce new).
Proof. unfold put_data. cbn [i_name]. rewrite str_eqb_refl. reflexivity. Qed.
Lemma dset_stored deflate items ce new : NoDup (map i_name items) -> In (Plain ce) items ->
  dset (e_name ce) (deflate new) (map (stored_pair deflate) items) = map (stored_pair deflate) (map (put_data ce new) items).
Proof.
  induction items as [|x items IH]; intros Hnd Hin; [destruct Hin|]. inversion Hnd as [|y l Hy Hl]; subst. cbn [map dset stored_pair].
  destruct (str_eqb (e_name ce) (i_name x)) eqn:E.
  - apply str_eqb_spec in E. rewrite put_other by (rewrite E; exact Hy). f_equal.
    unfold stored_pair, put_data. rewrite <- E, str_eqb_refl. cbn [i_name with_data e_name stored e_data]. reflexivity.
  - destruct Hin as [->|Hin]; [cbn [i_name] in E; rewrite str_eqb_refl in E; discriminate|]. f_equal; [|apply IH; assumption].
    unfold stored_pair, put_data. replace (str_eqb (i_name x) (e_name ce)) with false; [reflexivity|]. symmetry. apply str_eqb_neq. apply str_eqb_neq in E. congruence.
Qed.
Lemma filter_stored deflate ce items all : e_name ce = configinfo -> ~ In configinfo (map i_name items) -> Permutation (Plain ce :: items) all -> ascending (map i_name all) ->
  exists its, Permutation items its /\ ascending (map i_name its) /\ filter (fun e => negb (str_eqb (fst e) configinfo)) (map (stored_pair deflate) all) = map (stored_pair deflate) its.
Proof.
  intros Hc Hn Hp Ha. set (keep := fun i : item => negb (str_eqb (i_name i) configinfo)).
  exists (filter keep all). split; [|split].
  - assert (E : filter keep (Plain ce :: items) = items).
    { cbn [filter]. unfold keep at 1. cbn [i_name]. rewrite Hc, str_eqb_refl. cbn [negb]. clear Hp. induction items as [|e es IH]; [reflexivity|]. cbn [filter map] in *.
      unfold keep at 1. replace (str_eqb (i_name e) configinfo) with false; [cbn [negb]; f_equal; apply IH; intros H; apply Hn; right; exact H|].
      symmetry. apply str_eqb_neq. intros H. apply Hn. left. exact H. }
    rewrite <- E. apply filter_perm, Hp.
  - clear Hp. revert Ha. induction all as [|e all IH]; [auto|]. cbn [map ascending filter]. intros [H1 H2]. destruct (keep e); [|apply IH, H2].
    cbn [map ascending]. split; [|apply IH, H2]. apply Forall_forall. intros n Hin. apply in_map_iff in Hin. destruct Hin as (x & <- & Hx).
    apply filter_In in Hx. apply (proj1 (Forall_forall _ _) H1). apply in_map, Hx.
  - clear. induction all as [|e all IH]; [reflexivity|]. cbn [map filter fst stored_pair]. unfold keep at 1. destruct (str_eqb (i_name e) configinfo); cbn [negb map]; [exact IH|rewrite IH; reflexivity].
Qed.

Lemma filter_put deflate ce new l : filter (fun e => negb (str_eqb (fst e) (e_name ce))) (map (stored_pair deflate) (map (put_data ce new) l)) = filter (fun e => negb (str_eqb (fst e) (e_name ce))) (map (stored_pair deflate) l).
Proof.
  induction l as [|i l IH]; [reflexivity|]. cbn [map filter]. change (fst (stored_pair deflate (put_data ce new i))) with (i_name (put_data ce new i)). rewrite put_name. change (fst (stored_pair deflate i)) with (i_name i).
  destruct (str_eqb (i_name i) (e_name ce)) eqn:E; cbn [negb]; [exact IH|]. rewrite IH. f_equal. unfold put_data. rewrite E. reflexivity.
Qed.

(** the text of configinfo, written with the line ends of the platform *)
Lemma rewrite_native os p1 versions old : ~ contains mark_text p1 -> ~ In CR p1 -> Forall scalar (p1 ++ versions) -> 18 <= zlen versions ->
  utf8_encode (write_nl os (p1 ++ mark_text)) = Ok old ->
  rewrite_configinfo os versions old = utf8_encode (write_nl os (p1 ++ versions)).
Proof.
  intros H1 H3 H4 H5 Ho. apply Forall_app in H4. destruct H4 as [S1 SV].
  assert (S0 : Forall scalar (write_nl os (p1 ++ mark_text))) by (apply scalar_write_nl, Forall_app; split; [exact S1|apply mark_scalar]).
  rewrite (utf8_encode_ok _ S0) in Ho. assert (Eo : old = flat_map utf8_char (write_nl os (p1 ++ mark_text))) by congruence. clear Ho. subst old.
  unfold rewrite_configinfo. rewrite (utf8_decode_ok _ S0). cbn [bind].
  assert (Hcr : ~ In CR (p1 ++ mark_text)).
  { intros H. apply in_app_or in H. destruct H as [H|H]; [apply H3, H|]. repeat (destruct H as [H|H]; [discriminate|]). destruct H. }
  rewrite univ_write_nocr by exact Hcr.
  replace (p1 ++ mark_text) with (p1 ++ mark_text ++ []) at 1 by (rewrite app_nil_r; reflexivity).
  rewrite replace_once; [|exact H1|intros (a & b & E); symmetry in E; apply app_eq_nil in E; destruct E as [_ E]; apply app_eq_nil in E; destruct E; discriminate].
  rewrite app_nil_r.
  assert (SN : Forall scalar (write_nl os (p1 ++ versions))) by (apply scalar_write_nl, Forall_app; split; assumption).
  rewrite (utf8_encode_ok _ SN). cbn [bind]. f_equal. rewrite zdrop_all; [apply app_nil_r|].
  rewrite !write_nl_app, !flat_map_app, !zlen_app. pose proof (write_nl_utf8_len os versions). pose proof (utf8_len_ge versions).
  assert (zlen (flat_map utf8_char (write_nl os mark_text)) = 18) by (destruct os; reflexivity). lia.
Qed.

Lemma configinfo_name : valid_name configinfo.
Proof.
  split; [|split].
  - unfold configinfo. repeat (constructor; [apply small_scalar; reflexivity|]). constructor.
  - intros H. repeat (destruct H as [H|H]; [discriminate|]). destruct H.
  - repeat split; discriminate.
Qed.

(** Packing files and folders, configinfo among them, and unpacking: everything comes back, and
    configinfo with the names and digests of all others in place of the mark. *)
Lemma info_pipeline deflate digest os inf stamp ce items p1 all :
  e_name ce = configinfo -> items <> [] -> NoDup (map i_name (Plain ce :: items)) -> Permutation (Plain ce :: items) all -> zlen items < 2 ^ 31 ->
  Forall (fun n => valid_name n /\ zlen n <= 62) (map i_name items) -> Forall valid_item items ->
  (forall n es, In (Sub n es) items -> ~ In (n ++ ext_temp) (map i_name items)) ->
  (forall d, sha1_text (digest d)) -> (forall d, restores_promptly inf (deflate d) d) ->
  ~ contains mark_text p1 -> ~ In CR p1 -> Forall scalar p1 ->
  utf8_encode (write_nl os (p1 ++ mark_text)) = Ok (e_data ce) ->
  (forall n, In n (map i_name (Plain ce :: items)) -> 0 <= fst (stamp n) < 2 ^ 64 /\ 0 <= snd (stamp n) < 2 ^ 64) ->
  exists its new, Permutation items its /\ ascending (map i_name its)
    /\ utf8_encode (write_nl os (p1 ++ versions_line (str_of_int (zlen its)) digest (map (stored_pair deflate) its))) = Ok new
    /\ (container_size layout32 (packed_entries stamp (map (stored_pair deflate) (Plain (with_data ce new) :: items))) < 2147483647 ->
       exists bytes N, pack deflate digest os stamp [([48%N], map item_node all)] = Ok bytes
       /\ (forall n fuel, (2 <= n)%nat -> (N <= fuel)%nat -> exists files, extract_all n fuel bytes = Ok [files] /\ filter (fun e => negb (str_eqb (fst e) configinfo)) files = map (stored_pair deflate) its)
       /\ forall sched n fuel depth, (forall l, Permutation l (sched l)) -> (2 <= n)%nat -> (N <= fuel)%nat ->
          exists items' fo, Permutation (Plain (with_data ce new) :: items) items' /\ Forall2 comes_back items' fo /\ unpack inf n fuel depth sched bytes = Ok [fo]).
Proof.
  intros Hcn Hne Hnd Hp Hcount Hes Hvi Htmp Hsha Hinf H1 H3 H4 Ho Hst.
  assert (Hnd' : NoDup (map i_name all)) by (apply (Permutation_NoDup (Permutation_map i_name Hp)), Hnd).
  assert (Hce : ~ looks_like_container (e_data ce)).
  { assert (S0 : Forall scalar (write_nl os (p1 ++ mark_text))) by (apply scalar_write_nl, Forall_app; split; [exact H4|apply mark_scalar]).
    rewrite (utf8_encode_ok _ S0) in Ho. apply (@text_not_container (write_nl os (p1 ++ mark_text))). replace (e_data ce) with (flat_map utf8_char (write_nl os (p1 ++ mark_text))) by congruence. apply utf8_decode_ok, S0. }
  assert (Hva : Forall valid_item all) by (apply (Permutation_Forall Hp); constructor; [exact Hce|exact Hvi]).
  destruct (sort_items all Hnd') as (alls & Sp & Sa & E).
  assert (Hps : Permutation (Plain ce :: items) alls) by (transitivity all; assumption).
  assert (Hn : ~ In configinfo (map i_name items)) by (cbn [map i_name] in Hnd; inversion Hnd as [|x l Hx Hl]; rewrite Hcn in Hx; exact Hx).
  destruct (@filter_stored deflate ce items alls Hcn Hn Hps Sa) as (its & Pi & Ai & Ef).
  assert (Hz : zlen its = zlen items) by (unfold zlen; rewrite (Permutation_length Pi); reflexivity).
  set (others := map (stored_pair deflate) its) in *. set (vt := versions_line (str_of_int (zlen its)) digest others).
  assert (Hes' : Forall (fun n => valid_name n /\ zlen n <= 62) (map i_name its)) by (apply (Permutation_Forall (Permutation_map i_name Pi)), Hes).
  assert (Hes2 : Forall (fun e => (Forall scalar (fst e) /\ zlen (fst e) <= 62)) others).
  { unfold others. apply Forall_map. cbn [stored_pair fst]. apply Forall_map in Hes'. eapply Forall_impl; [|exact Hes']. intros i [(A & _) B]. split; assumption. }
  assert (Hzo : zlen others = zlen its) by (unfold others; apply zlen_map).
  assert (Hv : versions_text digest (map (stored_pair deflate) alls) = Ok vt).
  { unfold vt. rewrite <- Hzo, <- Ef. apply versions_text_ok.
    - apply count_unfolded. rewrite Ef. rewrite Hzo, Hz. pose proof (zlen_nonneg items). lia.
    - rewrite Ef. eapply Forall_impl; [|exact Hes2]. cbn [fst snd]. intros e [_ A]. split; [exact A|apply sha1_unfolded, Hsha]. }
  assert (Hline : 18 <= zlen vt /\ Forall scalar vt).
  { apply versions_line_ok.
    - unfold others. intros Q. apply map_eq_nil in Q. rewrite Q in Pi. apply Hne. apply Permutation_nil. apply Permutation_sym, Pi.
    - apply Forall_forall. intros c Hc. apply str_of_int_chars in Hc. apply small_scalar. lia.
    - eapply Forall_impl; [|exact Hes2]. intros e [A _]. split; [exact A|apply Hsha]. }
  destruct Hline as [L SV].
  assert (Hsc : Forall scalar (p1 ++ vt)) by (apply Forall_app; split; assumption).
  pose proof (@rewrite_native os p1 vt (e_data ce) H1 H3 Hsc L Ho) as R.
  assert (SN : Forall scalar (write_nl os (p1 ++ vt))) by (apply scalar_write_nl, Hsc).
  set (new := flat_map utf8_char (write_nl os (p1 ++ vt))). assert (En : utf8_encode (write_nl os (p1 ++ vt)) = Ok new) by (apply utf8_encode_ok, SN).
  rewrite En in R.
  assert (Hin : In (Plain ce) alls) by (apply (Permutation_in _ Hps); left; reflexivity).
  assert (Hnda : NoDup (map i_name alls)) by (apply ascending_nodup, Sa).
  exists its, new. split; [exact Pi|]. split; [exact Ai|]. split; [exact En|]. intros Hsz.
  set (fin := map (put_data ce new) alls).
  assert (Hfp : Permutation (Plain (with_data ce new) :: items) fin).
  { replace (Plain (with_data ce new) :: items) with (map (put_data ce new) (Plain ce :: items)); [apply Permutation_map, Hps|]. cbn [map].
    rewrite put_here. rewrite put_other by (rewrite Hcn; exact Hn). reflexivity. }
  assert (HC : compress_container deflate digest os (map item_node all) = Ok (map (stored_pair deflate) fin)).
  { unfold compress_container. rewrite E, compress_items by (apply (Permutation_Forall Sp), Hva). cbn [bind]. unfold calc_sha1.
    change configinfo with (i_name (Plain (mkent configinfo 0 0 []))) at 1. cbn [i_name e_name]. rewrite <- Hcn at 1.
    pose proof (@dget_stored deflate alls (Plain ce) Hnda Hin) as Q1. cbn [i_name] in Q1. rewrite Q1. rewrite Hv. cbn [bind].
    rewrite <- Hcn at 1. pose proof (@dget_items all (Plain ce) Hnd' (Permutation_in _ (Permutation_sym Sp) Hin)) as Q2. cbn [i_name] in Q2. rewrite Q2.
    cbn [item_node file_node snd]. rewrite R. cbn [bind]. rewrite <- Hcn. rewrite dset_stored by assumption. reflexivity. }
  assert (Hfn : map fst (map (stored_pair deflate) fin) = map i_name alls) by (rewrite stored_names; apply put_names).
  assert (Hpn : Permutation (map i_name (Plain ce :: items)) (map i_name alls)) by (apply Permutation_map, Hps).
  destruct (@pack_extract_gen deflate digest os stamp _ _ HC) as (bytes & N & P & X).
  { intros Q. apply map_eq_nil in Q. unfold fin in Q. apply map_eq_nil in Q. rewrite Q in Hps. apply Permutation_sym, Permutation_nil in Hps. discriminate. }
  { rewrite Hfn. exact Sa. }
  { rewrite Hfn. apply (Permutation_Forall Hpn). cbn [map i_name]. constructor; [rewrite Hcn; apply configinfo_name|]. eapply Forall_impl; [|exact Hes]. intros n [A _]. exact A. }
  { rewrite Hfn. intros n Hi. apply Hst. apply (Permutation_in _ (Permutation_sym Hpn)), Hi. }
  { erewrite perm_size; [exact Hsz|]. unfold packed_entries. apply Permutation_map, Permutation_map, Permutation_sym, Hfp. }
  destruct (@unpack_items deflate inf (Plain (with_data ce new) :: items) (map (stored_pair deflate) fin) bytes N) as [N2 U].
  - exact Hnd.
  - constructor; [|exact Hvi]. cbn [valid_item with_data e_data]. apply (@text_not_container (write_nl os (p1 ++ vt))). apply utf8_decode_ok, SN.
  - apply Forall_forall. intros [e|n es] _; cbn [codec_fits]; [apply promptly_without_gap|]; auto.
  - intros n es [Q|Q]; [discriminate|]. cbn [map i_name with_data e_name]. intros [A|A]; [|exact (Htmp n es Q A)].
    rewrite Hcn in A. assert (Z := f_equal (@rev _) A). rewrite rev_app_distr in Z. cbn in Z. discriminate.
  - apply Permutation_map, Hfp.
  - exact X.
  - exists bytes, (Nat.max N N2). split; [exact P|]. split.
    + intros n fuel A B. eexists. split; [apply X; [exact A|lia]|]. unfold fin. rewrite <- Hcn, filter_put, Hcn. exact Ef.
    + intros sched n fuel depth A B C. apply U; [exact A|exact B|lia].
Qed.
