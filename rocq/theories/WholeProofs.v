(** Packing a folder of extracted files and unpacking it: lemmas for Props_Whole.v. *)
From Coq Require Import String Permutation.
From Verif Require Import PyBase PyInt Utf PyFile PyText Codecs Brace Spec_Brace Container Spec_Container ContainerProofs Pipeline Spec_Pipeline PipelineProofs PipelineMore PipelineItems Spec_Obj ObjCode Real Whole Props_Pipeline Spec_Whole.
Open Scope list_scope.
Open Scope Z_scope.

(** ** folders on disk *)
Lemma filter_dget A (l : list (list N * A)) k n : n <> k -> dget n (filter (fun x => negb (str_eqb (fst x) k)) l) = dget n l.
Proof.
  intros H. induction l as [|[m x] l IH]; [reflexivity|]. cbn [filter fst dget]. destruct (str_eqb m k) eqn:E; cbn [negb dget].
  - apply str_eqb_spec in E. subst m. rewrite IH. replace (str_eqb n k) with false; [reflexivity|]. symmetry. apply str_eqb_neq. exact H.
  - rewrite IH. reflexivity.
Qed.
Lemma once_dget A (l : list (list N * A)) n : dget n (once l) = dget n l.
Proof.
  induction l as [|[m x] l IH]; [reflexivity|]. cbn [once fold_right]. fold (once l). cbn [fst dget].
  destruct (str_eqb n m) eqn:E; [reflexivity|]. rewrite filter_dget; [exact IH|]. apply str_eqb_neq. exact E.
Qed.
Lemma nodup_filter A B (f : A -> B) p (l : list A) : NoDup (map f l) -> NoDup (map f (filter p l)).
Proof.
  induction l as [|x l IH]; intros H; [constructor|]. inversion H as [|y q Hy Hq]; subst. cbn [filter]. destruct (p x); [|apply IH, Hq].
  cbn [map]. constructor; [|apply IH, Hq]. intros Hin. apply Hy. apply in_map_iff in Hin. destruct Hin as (z & <- & Hz). apply in_map. apply filter_In in Hz. apply Hz.
Qed.
Lemma once_nodup A (l : list (list N * A)) : NoDup (map fst (once l)).
Proof.
  induction l as [|[m x] l IH]; [constructor|]. cbn [once fold_right]. fold (once l). cbn [fst map]. constructor; [|apply nodup_filter, IH].
  intros Hin. apply in_map_iff in Hin. destruct Hin as ([k y] & E & Hy). apply filter_In in Hy. cbn [fst] in *. subst k. rewrite str_eqb_refl in Hy. destruct Hy; discriminate.
Qed.
Lemma once_map A B (g : list N * A -> list N * B) l : (forall e, fst (g e) = fst e) -> once (map g l) = map g (once l).
Proof.
  intros H. induction l as [|e l IH]; [reflexivity|]. cbn [map once fold_right]. fold (once l). fold (once (map g l)). rewrite IH. f_equal.
  rewrite H. clear IH. generalize (once l). intros q. induction q as [|x q IH]; [reflexivity|]. cbn [map filter]. rewrite H. destruct (str_eqb (fst x) (fst e)); cbn [negb map]; rewrite IH; reflexivity.
Qed.
Lemma dget_in' A (l : list (list N * A)) n x : NoDup (map fst l) -> In (n, x) l -> dget n l = Some x.
Proof.
  induction l as [|[m y] l IH]; intros H Hin; [destruct Hin|]. inversion H as [|k q Hk Hq]; subst. cbn [dget]. destruct (str_eqb n m) eqn:E.
  - apply str_eqb_spec in E. subst m. destruct Hin as [Q|Hin]; [congruence|]. exfalso. apply Hk. apply in_map_iff. exists (n, x). auto.
  - destruct Hin as [Q|Hin]; [|apply IH; assumption]. apply str_eqb_neq in E. congruence.
Qed.
Lemma dget_some_in A (l : list (list N * A)) n x : dget n l = Some x -> In (n, x) l.
Proof.
  induction l as [|[m y] l IH]; [discriminate|]. cbn [dget]. destruct (str_eqb n m) eqn:E; intros H; [|right; apply IH, H]. apply str_eqb_spec in E. injection H as ->. left. congruence.
Qed.
Lemma nodup_pairs A (l : list (list N * A)) : NoDup (map fst l) -> NoDup l.
Proof. apply NoDup_map_inv. Qed.
Lemma dget_perm A (a b : list (list N * A)) : NoDup (map fst a) -> NoDup (map fst b) -> (forall n, dget n a = dget n b) -> Permutation a b.
Proof.
  intros Ha Hb H. apply NoDup_Permutation; [apply nodup_pairs, Ha|apply nodup_pairs, Hb|]. intros [n x]. split; intros Hin.
  - apply dget_some_in. rewrite <- H. apply dget_in'; assumption.
  - apply dget_some_in. rewrite H. apply dget_in'; assumption.
Qed.
Lemma dset_absent A (l : list (list N * A)) n x : ~ In n (map fst l) -> dset n x l = l ++ [(n, x)].
Proof.
  induction l as [|[m y] l IH]; intros H; [reflexivity|]. cbn [dset app]. replace (str_eqb n m) with false; [rewrite IH; [reflexivity|intros Q; apply H; right; exact Q]|].
  symmetry. apply str_eqb_neq. intros E. apply H. left. symmetry. exact E.
Qed.
Lemma on_disk_all (fo : folder) : NoDup (map fst fo) -> on_disk (map (fun e => (fst e, Some (snd e))) fo) = fo.
Proof.
  unfold on_disk. intros H. assert (G : forall l acc, NoDup (map fst acc ++ map fst l) -> fold_left (fun (fo : folder) (e : written) => match snd e with Some t => dset (fst e) t fo | None => fo end) (map (fun e => (fst e, Some (snd e))) l) acc = acc ++ l).
  { induction l as [|[n x] l IH]; intros acc Hn; [cbn; symmetry; apply app_nil_r|]. cbn [map fold_left fst snd]. cbn [map fst] in Hn. rewrite dset_absent.
    - rewrite IH; [rewrite <- app_assoc; reflexivity|]. rewrite map_app, <- app_assoc. exact Hn.
    - apply NoDup_remove_2 in Hn. intros Q. apply Hn, in_or_app. left. exact Q. }
  apply (G fo []). exact H.
Qed.

(** ** items *)
Lemma item_at_name time e : i_name (item_at time e) = fst e.
Proof. unfold item_at. destruct (snd e); reflexivity. Qed.
Lemma item_at_names time fo : map i_name (map (item_at time) fo) = map fst fo.
Proof. rewrite map_map. apply map_ext. intros e. apply item_at_name. Qed.
Definition flat (t : tree) : Prop := match t with TFile _ => True | TDir l => Forall (fun e => exists d, snd e = TFile d) (once l) end.
Lemma node_item time e : flat (snd e) -> (fst e, to_node time [fst e] (snd e)) = item_node (item_at time e).
Proof.
  destruct e as [n [d|l]]; cbn [flat fst snd item_at to_node item_node]; intros H; [reflexivity|]. f_equal. f_equal.
  rewrite once_map by reflexivity. rewrite map_map. apply map_ext_in. intros [m t] Hin. pose proof (proj1 (Forall_forall _ _) H _ Hin) as [d E]. cbn [snd] in E. subst t.
  reflexivity.
Qed.
Lemma entry_size_times c m c' m' e : entry_size layout32 (plain_entry c m e) = entry_size layout32 (plain_entry c' m' e).
Proof. reflexivity. Qed.
Lemma size_times (f : list N * tree -> Z * Z) l : container_size layout32 (map (fun x => plain_entry (fst (f x)) (snd (f x)) x) l) = container_size layout32 (map (plain_entry 0 0) l).
Proof.
  unfold container_size, toc_size. rewrite !map_map, !zlen_map. reflexivity.
Qed.
Lemma once_of_packable l l' : packable (TDir l) -> (forall n, dget n l = dget n l') -> Permutation l (once l').
Proof.
  intros (_ & Hnd & _) H. apply dget_perm; [exact Hnd|apply once_nodup|]. intros n. rewrite once_dget. apply H.
Qed.
Lemma packable_item time n t t' : times_ok time -> packable t -> same_entry (Some t) (Some t') -> valid_item (item_at time (n, t')) /\ flat t'.
Proof.
  intros Ht Hp Hs. destruct t as [d|l], t' as [d'|l']; cbn [same_entry] in Hs; try contradiction.
  - subst d'. cbn [item_at snd valid_item flat]. split; [exact Hp|exact I].
  - pose proof (once_of_packable _ _ Hp Hs) as P. destruct Hp as (Hne & Hnd & Hf & Hsz). cbn [item_at fst snd valid_item flat].
    assert (Hf' : Forall (fun e => valid_name (fst e) /\ exists d, snd e = TFile d /\ ~ looks_like_container d) (once l')) by (apply (Permutation_Forall P), Hf).
    split; [|eapply Forall_impl; [|exact Hf']; intros e (_ & d & E & _); exists d; exact E].
    split; [|split].
    + split; [|split].
      * intros E. apply map_eq_nil in E. rewrite E in P. apply Permutation_sym, Permutation_nil in P. congruence.
      * apply Forall_map. eapply Forall_impl; [|exact Hf']. intros e ((V1 & V2 & V3) & d & E & _). destruct (Ht [n; fst e]) as [T1 T2].
        repeat split; cbn [plain_entry e_name e_ctime e_mtime]; assumption || apply V3 || apply T1 || apply T2.
      * rewrite map_map. cbn [plain_entry e_name]. apply once_nodup.
    + apply Forall_map. eapply Forall_impl; [|exact Hf']. intros e (_ & d & E & H). cbn [plain_entry e_data]. rewrite E. exact H.
    + rewrite size_times. erewrite perm_size; [exact Hsz|]. apply Permutation_map, Permutation_sym, P.
Qed.

(** ** what comes back *)
Lemma back_name i r : comes_back i r -> fst r = i_name i.
Proof. destruct 1; reflexivity. Qed.
Lemma back_names is rs : Forall2 comes_back is rs -> map fst rs = map i_name is.
Proof. induction 1 as [|i r is rs H _ IH]; [reflexivity|]. cbn [map]. rewrite IH, (back_name _ _ H). reflexivity. Qed.
Lemma back_in is rs i : Forall2 comes_back is rs -> In i is -> exists r, In r rs /\ comes_back i r.
Proof. induction 1 as [|j r is rs H _ IH]; intros Hin; [destruct Hin|]. destruct Hin as [->|Hin]; [exists r; split; [left; reflexivity|exact H]|]. destruct (IH Hin) as (q & A & B). exists q. split; [right; exact A|exact B]. Qed.
Lemma dget_file_trees es n : dget n (map file_tree es) = match dget n (map (fun e => (e_name e, e_data e)) es) with Some d => Some (TFile d) | None => None end.
Proof. induction es as [|e es IH]; [reflexivity|]. cbn [map file_tree dget]. destruct (str_eqb n (e_name e)); [reflexivity|exact IH]. Qed.
Lemma perm_dget A (a b : list (list N * A)) n : NoDup (map fst a) -> Permutation a b -> dget n a = dget n b.
Proof.
  intros Hn P. destruct (dget n a) as [x|] eqn:E.
  - symmetry. apply dget_in'; [apply (Permutation_NoDup (Permutation_map fst P)), Hn|]. apply (Permutation_in _ P). apply dget_some_in, E.
  - destruct (dget n b) as [x|] eqn:E2; [|reflexivity]. apply dget_some_in in E2. apply (Permutation_in _ (Permutation_sym P)) in E2. apply dget_in' in E2; [congruence|exact Hn].
Qed.
Lemma back_same time n t r : flat t -> comes_back (item_at time (n, t)) r -> same_entry (Some t) (Some (snd r)).
Proof.
  destruct t as [d|l]; cbn [item_at fst snd flat]; intros Hf H; inversion H as [e E|m es es' S E]; subst; cbn [snd file_tree same_entry]; [reflexivity|].
  intros k. rewrite <- once_dget. destruct S as [P _].
  rewrite <- (@perm_dget _ (map file_tree (map (fun x => plain_entry (fst (time [n; fst x])) (snd (time [n; fst x])) x) (once l))) (map file_tree es') k).
  - f_equal. rewrite map_map. rewrite <- (map_id (once l)) at 1. apply map_ext_in. intros [m y] Hin. pose proof (proj1 (Forall_forall _ _) Hf _ Hin) as [d E]. cbn [snd] in E. subst y. reflexivity.
  - rewrite !map_map. cbn [file_tree plain_entry fst e_name]. apply once_nodup.
  - apply Permutation_map, P.
Qed.
Lemma same_trans a b c : same_entry a b -> same_entry b c -> same_entry a c.
Proof. destruct a as [[?|?]|], b as [[?|?]|], c as [[?|?]|]; cbn [same_entry]; try tauto; congruence. Qed.
(** the unpacked folder *)
Lemma back_folder time (fo : folder) items' src' : NoDup (map fst fo) -> (forall n t, In (n, t) fo -> flat t) -> Permutation (map (item_at time) fo) items' -> Forall2 comes_back items' src' ->
  Permutation (map fst fo) (map fst src') /\ NoDup (map fst src') /\ forall n t, In (n, t) fo -> same_entry (Some t) (dget n src').
Proof.
  intros Hnd Hf P F. assert (Pn : Permutation (map fst fo) (map fst src')) by (rewrite (back_names _ _ F), <- (item_at_names time); apply Permutation_map, P).
  assert (Hn' : NoDup (map fst src')) by (apply (Permutation_NoDup Pn), Hnd). split; [exact Pn|]. split; [exact Hn'|]. intros n t Hin.
  destruct (@back_in _ _ (item_at time (n, t)) F) as ([m y] & Hr & Hb); [apply (Permutation_in _ P), in_map, Hin|].
  pose proof (back_name _ _ Hb) as En. rewrite item_at_name in En. cbn [fst] in En. subst m.
  rewrite (dget_in' _ _ _ _ Hn' Hr). apply (back_same time n t (n, y)); [eapply Hf, Hin|exact Hb].
Qed.

Lemma nodes_items time (fo : folder) : (forall n t, In (n, t) fo -> flat t) -> to_nodes time fo = map item_node (map (item_at time) fo).
Proof. intros H. unfold to_nodes. rewrite map_map. apply map_ext_in. intros [n t] Hin. apply node_item. eapply H, Hin. Qed.

(** Packing a folder of packable entries without configinfo, and unpacking it *)
Lemma folder_pipeline deflate digest os inf stamp time order (fo : folder) :
  fo <> [] -> NoDup (map fst fo) -> ~ In configinfo (map fst fo) -> Forall valid_name (map fst fo) ->
  (forall n t, In (n, t) fo -> valid_item (item_at time (n, t)) /\ flat t /\ (forall l, t = TDir l -> ~ In (n ++ ext_temp) (map fst fo))) ->
  (forall d, restores_promptly inf (deflate d) d) -> listing_order order -> stamps_ok stamp (map fst fo) -> packed_size deflate stamp time fo < 2147483647 ->
  exists bytes M, pack deflate digest os stamp [([48%N], order (to_nodes time fo))] = Ok bytes /\
    forall sched n fuel depth, any_order sched -> (2 <= n)%nat -> (M <= fuel)%nat ->
    exists src', unpack inf n fuel depth sched bytes = Ok [src'] /\ Permutation (map fst fo) (map fst src') /\ NoDup (map fst src') /\ forall n t, In (n, t) fo -> same_entry (Some t) (dget n src').
Proof.
  intros Hne Hnd Hci Hvn Hit Hinf Hord Hst Hsz.
  assert (Hfl : forall n t, In (n, t) fo -> flat t) by (intros n t Hin; apply (Hit n t Hin)).
  rewrite (nodes_items time fo Hfl). pose proof (Hord (map item_node (map (item_at time) fo))) as Po.
  apply Permutation_sym in Po. apply Permutation_map_inv in Po. destruct Po as (items & Eo & Po). rewrite Eo.
  assert (Pn : Permutation (map fst fo) (map i_name items)) by (rewrite <- (item_at_names time); apply Permutation_map, Po).
  assert (Hin0 : forall i, In i items -> exists e, In e fo /\ i = item_at time e).
  { intros i Hi. apply (Permutation_in _ (Permutation_sym Po)) in Hi. apply in_map_iff in Hi. destruct Hi as (e & <- & He). exists e. auto. }
  destruct (@pipeline deflate digest os inf stamp items) as (bytes & M & P & U).
  - intros ->. apply Hne. apply Permutation_sym, Permutation_nil, map_eq_nil in Po. exact Po.
  - apply (Permutation_NoDup Pn), Hnd.
  - apply (Permutation_Forall Pn), Hvn.
  - intros Q. apply Hci. apply (Permutation_in _ (Permutation_sym Pn)), Q.
  - apply Forall_forall. intros i Hi. destruct (Hin0 i Hi) as ([n t] & He & ->). apply (Hit n t He).
  - apply Forall_forall. intros [e|n es] _; cbn [codec_fits]; [apply promptly_without_gap|]; auto.
  - intros n es Hi Q. destruct (Hin0 _ Hi) as ([m t] & He & E). unfold item_at in E. cbn [fst snd] in E. destruct t as [d|l]; [discriminate|]. injection E as -> _.
    apply (proj2 (proj2 (Hit m (TDir l) He)) l eq_refl). apply (Permutation_in _ (Permutation_sym Pn)), Q.
  - intros n Hi. apply Hst. apply (Permutation_in _ (Permutation_sym Pn)), Hi.
  - unfold packed_size, stored_listing in Hsz. erewrite perm_size; [exact Hsz|]. apply Permutation_map, Permutation_sym, Po.
  - exists bytes, M. split; [exact P|]. intros sched n fuel depth H1 H2 H3. destruct (U sched n fuel depth H1 H2 H3) as (items' & src' & P' & F & E).
    exists src'. split; [exact E|]. eapply (@back_folder time); [exact Hnd|exact Hfl| |exact F]. transitivity items; assumption.
Qed.
