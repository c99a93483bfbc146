(** C27-C29, C45, C46: index files.
    Models: UpdateDict.v, Index.v.  Vocabulary: Spec_Index.v (and Spec_Descent.v for
    versioned names). *)
From Coq Require Import String.
From Verif Require Import PyBase PyInt Descent Paths Json UpdateDict Index Spec_Descent DescentProofs Spec_Index UpdateDictProofs IndexProofs IndexLookup.
Open Scope list_scope.
Open Scope Z_scope.

(** C27 *)
Theorem C27_merge : forall a b, proper (JDict a) -> proper (JDict b) ->
  ((exists r, update_dict [a; b] = Ok r) <-> mergeable a b) /\
  (forall r, update_dict [a; b] = Ok r -> merged a b r /\ proper (JDict r) /\
     dkeys r = dkeys a ++ filter (fun k => negb (existsb (str_eqb k) (dkeys a))) (dkeys b)) /\
  (forall e, update_dict [a; b] = Err e -> e = ExtExc).
Proof.
  intros a b Ha Hb. assert (E : update_dict [a; b] = _update_dict a b) by (cbn [update_dict update_fold]; destruct (_update_dict a b); reflexivity).
  rewrite E. split; [apply update_total; exact Hb|]. split.
  - intros r Hr. split; [apply update_merged; assumption|]. split; [eapply update_proper; [exact Hb|reflexivity|exact Ha|exact Hr]|].
    inversion Hb; subst. apply update_keys; assumption.
  - intros e He. eapply update_err; [reflexivity|exact He].
Qed.
Print Assumptions C27_merge.
(** an empty dictionary on either side, or a single argument, changes nothing *)
Theorem C27_identity : forall a, proper (JDict a) ->
  update_dict [a] = Ok a /\ update_dict [a; []] = Ok a /\ update_dict [[]; a] = Ok a.
Proof.
  intros a Ha. assert (E := update_empty_l Ha). split; [exact E|]. split; [reflexivity|]. cbn [update_dict update_fold]. rewrite E. reflexivity.
Qed.
Print Assumptions C27_identity.
(** of any number of dictionaries, the last one that says something about an entry decides *)
Theorem C27_last_wins : forall p v ds1 d ds2 r, p <> [] -> is_scalar v -> Forall (fun d => proper (JDict d)) (ds1 ++ d :: ds2) ->
  update_dict (ds1 ++ d :: ds2) = Ok r -> at_path p d = Some v -> Forall (untouched p) ds2 -> at_path p r = Some v.
Proof. exact update_dict_wins. Qed.
Print Assumptions C27_last_wins.

(** C45: the index file with its sub-indexes *)
Theorem C45_main_index_wins : forall load f main names subs r, f <> [] ->
  load f = Some main -> dget s_index_json main = Some (JList (map JStr names)) -> map load names = map Some subs ->
  Forall (fun d => proper (JDict d)) (main :: subs) -> check_index load f = Ok (Some r) ->
  forall p v ds1 d ds2, p <> [] -> is_scalar v -> subs ++ [ddel s_index_json main] = ds1 ++ d :: ds2 ->
    at_path p d = Some v -> Forall (untouched p) ds2 -> at_path p r = Some v.
Proof.
  intros load f main names subs r Hf Hl Hg Hs Hp H p v ds1 d ds2 Hpn Hv Eq Ha Hu.
  rewrite (@check_index_eq load f main names subs Hf Hl Hg Hs) in H. destruct (update_dict (subs ++ [ddel s_index_json main])) as [r'|] eqn:E; [|discriminate].
  injection H as ->. apply (C27_last_wins p v ds1 d ds2 r Hpn Hv); [|etransitivity; [apply f_equal; symmetry; exact Eq|exact E]|exact Ha|exact Hu].
  refine (eq_ind _ _ _ _ Eq). inversion Hp; subst. apply Forall_app. split; [assumption|]. constructor; [apply proper_ddel; assumption|constructor].
Qed.
Print Assumptions C45_main_index_wins.
Theorem C45_no_sub_index : forall load f main, f <> [] -> load f = Some main -> proper (JDict main) -> dget s_index_json main = None ->
  check_index load f = Ok (Some main).
Proof.
  intros load f main Hf Hl Hp Hg. unfold check_index. destruct f as [|c f]; [congruence|]. rewrite Hl, Hg. cbn [bind app].
  assert (ddel s_index_json main = main) as -> by (apply ddel_absent; exact Hg).
  pose proof (proj1 (C27_identity main Hp)) as Hi. unfold jdict, dict in *. rewrite Hi. reflexivity.
Qed.
Print Assumptions C45_no_sub_index.
Theorem C45_missing_sub_index : forall load f main names, f <> [] -> load f = Some main ->
  dget s_index_json main = Some (JList (map JStr names)) -> (exists n, In n names /\ load n = None) ->
  check_index load f = Err ExtExc.
Proof.
  intros load f main names Hf Hl Hg (n & Hin & Hn). unfold check_index. destruct f as [|c f]; [congruence|]. rewrite Hl, Hg.
  destruct names as [|n0 names]; [contradiction|]. cbn [map jtruthy iterate bind].
  change (JStr n0 :: map JStr names) with (map JStr (n0 :: names)).
  assert (E : load_all load (map JStr (n0 :: names)) = Err ExtExc); [|rewrite E; reflexivity].
  revert Hin. generalize (n0 :: names). induction l as [|m l IH]; [intros []|]. cbn [map load_all]. intros [->|Hin]; [rewrite Hn; reflexivity|].
  destruct (load m); [|reflexivity]. rewrite (IH Hin). reflexivity.
Qed.
Print Assumptions C45_missing_sub_index.
(** a sub-index of a sub-index is not loaded; its list of names stays as an ordinary entry *)
Theorem C45_nested_sub_index_refuted : forall load f main n sub l r, f <> [] ->
  load f = Some main -> dget s_index_json main = Some (JList [JStr n]) -> load n = Some sub ->
  proper (JDict main) -> proper (JDict sub) -> dget s_index_json sub = Some (JList l) ->
  check_index load f = Ok (Some r) -> dget s_index_json r = Some (JList l).
Proof.
  intros load f main n sub l r Hf Hl Hg Hn Hp Hps Hgs H.
  rewrite (@check_index_eq load f main [n] [sub] Hf Hl Hg) in H by (cbn; rewrite Hn; reflexivity).
  cbn [app update_dict update_fold] in H. destruct (_update_dict sub (ddel s_index_json main)) as [r'|] eqn:E; [|discriminate]. cbn [bind] in H. injection H as ->.
  apply update_merged in E; [|apply proper_ddel; exact Hp]. inversion E as [? ? ? Hk]; subst. specialize (Hk s_index_json).
  rewrite ddel_gone in Hk by (inversion Hp; assumption). rewrite Hgs in Hk. inversion Hk; subst. reflexivity.
Qed.
Print Assumptions C45_nested_sub_index_refuted.

(** C28 *)
Theorem C28_update_index : forall t d dest, tidy t -> fits t d -> exists d', update_index t (Some (JDict d)) dest = Ok (JDict d') /\
  (* nothing that was there changes *)
  (forall q v, (forall s, v <> JDict s) -> at_path q d = Some v -> at_path q d' = Some v) /\
  (forall q s, at_path q d = Some (JDict s) -> exists s', at_path q d' = Some (JDict s')) /\
  (* every file of the tree is present afterwards *)
  (forall p e, file_at t p e -> exists v, at_path (p ++ [e]) d' = Some v) /\
  (forall p, folder_at t p -> exists s, at_path p d' = Some (JDict s)) /\
  (* new entries are files or folders of the tree *)
  (forall q v, at_path q d' = Some v -> at_path q d = None -> folder_at t q \/ exists p e, q = p ++ [e] /\ file_at t p e) /\
  (* a second update changes nothing *)
  update_index t (Some (JDict d')) dest = Ok (JDict d').
Proof.
  intros t d dest Ht Hf. destruct (update_node_spec dest Ht [] Hf) as (d' & E & U). exists d'. split; [exact E|].
  split; [intros q v Hl Ha; eapply upd_kept; [exact U|exact Ht|exact Hf|exact Hl|exact Ha]|].
  split; [intros q s Ha; eapply upd_kept_dict; [exact U|exact Ht|exact Hf|exact Ha]|].
  split; [intros p e Ha; rewrite (upd_file U Ht Hf Ha); destruct (at_path (p ++ [e]) d); eexists; reflexivity|].
  split; [intros p Ha; eapply upd_folder; [exact U|exact Ht|exact Ha]|].
  split; [intros q v Ha Hd; eapply upd_new; [exact U|exact Ht|exact Hf|exact Ha|exact Hd]|].
  apply complete_id; [exact Ht|]. eapply upd_complete; exact U.
Qed.
Print Assumptions C28_update_index.
(** the location recorded for a new file, with and without a destination folder *)
Theorem C28_new_location : forall t d dest d' p e, tidy t -> fits t d -> update_index t (Some (JDict d)) dest = Ok (JDict d') ->
  file_at t p e -> at_path (p ++ [e]) d = None -> Forall plain_name (p ++ [e]) ->
  at_path (p ++ [e]) d' = Some (JStr (match dest with [] => [] | _ => under dest (p ++ [e]) end)).
Proof.
  intros t d dest d' p e Ht Hf H Ha Hd Hp. destruct (update_node_spec dest Ht [] Hf) as (d2 & E & U).
  unfold update_index in H. rewrite E in H. injection H as ->. rewrite (upd_file U Ht Hf Ha), Hd. f_equal. f_equal.
  destruct dest as [|c dest]; [reflexivity|]. apply location_under; [discriminate|exact Hp].
Qed.
Print Assumptions C28_new_location.
(** only the set of files and folders matters, not the order they are listed in *)
Theorem C28_order_irrelevant : forall t t' d dest d1 d2, tidy t -> tidy t' -> fits t d -> fits t' d ->
  (forall p e, file_at t p e <-> file_at t' p e) -> (forall p, folder_at t p <-> folder_at t' p) ->
  update_index t (Some (JDict d)) dest = Ok (JDict d1) -> update_index t' (Some (JDict d)) dest = Ok (JDict d2) ->
  forall q v, (forall s, v <> JDict s) -> at_path q d1 = Some v <-> at_path q d2 = Some v.
Proof.
  assert (G : forall t t' d dest d1 d2, tidy t -> tidy t' -> fits t d -> fits t' d ->
    (forall p e, file_at t p e -> file_at t' p e) ->
    updated dest t [] d d1 -> updated dest t' [] d d2 -> forall q v, (forall s, v <> JDict s) -> at_path q d1 = Some v -> at_path q d2 = Some v).
  { intros t t' d dest d1 d2 Ht Ht' Hf Hf' HF U U' q v Hl Ha. destruct (at_path q d) as [w|] eqn:Ed.
    - assert (Hc : leaf w \/ exists s, w = JDict s) by (destruct w; [left; intros ? ?; discriminate..|right; eexists; reflexivity]).
      destruct Hc as [Hw|[s ->]].
      + rewrite (upd_kept _ U Ht Hf Hw Ed) in Ha. injection Ha as ->. eapply upd_kept; [exact U'|exact Ht'|exact Hf'|exact Hw|exact Ed].
      + destruct (upd_kept_dict _ U Ht Hf Ed) as [s' E]. rewrite E in Ha. injection Ha as <-. exfalso. exact (Hl s' eq_refl).
    - destruct (upd_new _ U Ht Hf Ha Ed) as [Hfo|(p & e & -> & Hfi)].
      + destruct (upd_folder U Ht Hfo) as [s E]. rewrite E in Ha. injection Ha as <-. exfalso. exact (Hl s eq_refl).
      + rewrite (upd_file U Ht Hf Hfi), Ed in Ha. rewrite (upd_file U' Ht' Hf' (HF _ _ Hfi)), Ed. exact Ha. }
  intros t t' d dest d1 d2 Ht Ht' Hf Hf' HF HD H1 H2 q v Hl.
  destruct (update_node_spec dest Ht [] Hf) as (x & E & U). unfold update_index in H1. rewrite E in H1. injection H1 as ->.
  destruct (update_node_spec dest Ht' [] Hf') as (y & E' & U'). unfold update_index in H2. rewrite E' in H2. injection H2 as ->.
  split; [eapply (G t t')|eapply (G t' t)]; try eassumption; intros p e; apply HF.
Qed.
Print Assumptions C28_order_irrelevant.
(** a folder whose name looks versioned is entered as a file and its content is not indexed *)
Theorem C28_versioned_folder_refuted : forall f v es dest d, good_ext f -> dget (plain_of f) d = None ->
  update_index (Dir [(versioned f v, Dir es)]) (Some (JDict d)) dest =
    Ok (JDict (d ++ [(plain_of f, JStr (location dest [] (plain_of f)))])).
Proof.
  intros f v es dest d Hg Hd. unfold update_index. rewrite update_node_dir. cbn [map fst update_entries].
  rewrite remove_versioned by exact Hg. cbn [subs_of map fst snd dget].
  assert (str_eqb (plain_of f) (versioned f v) = false) as ->.
  { apply str_eqb_neq. intros E. apply (f_equal dots) in E. rewrite dots_plain, dots_versioned in E. lia. }
  cbn [jin bind]. rewrite Hd. cbn [jput bind]. rewrite dset_fresh by (apply dget_none; exact Hd). reflexivity.
Qed.
Print Assumptions C28_versioned_folder_refuted.
(** an index that has a location where the tree now has a folder with a new file in it is an error *)
Theorem C28_file_became_folder_refuted : forall n m d dest s, unversioned n -> unversioned m -> dget n d = Some (JStr s) -> find_sub m s = None ->
  update_index (Dir [(n, Dir [(m, File)])]) (Some (JDict d)) dest = Err TypeError.
Proof.
  intros n m d dest s Hn Hm Hd Hs. unfold update_index. rewrite update_node_dir. cbn [map fst update_entries].
  rewrite (unversioned_remove Hn). cbn [subs_of map fst snd dget]. rewrite str_eqb_refl. cbn [jin bind]. rewrite Hd. cbn [bind jget]. rewrite Hd. cbn [bind].
  rewrite update_node_dir. cbn [map fst update_entries]. rewrite (unversioned_remove Hm). cbn [subs_of map fst snd dget]. rewrite str_eqb_refl.
  cbn [jin bind]. rewrite Hs. reflexivity.
Qed.
Print Assumptions C28_file_became_folder_refuted.

(** C29.  [comps path] are the parts of [path] between slashes (none for the empty path);
    [relocated r descent] is the folder of [r], seen from one level (two with a version) up,
    and its last part. [mk] says what creating the folder does. *)
Theorem C29_lookup : forall mk dest path file d descent s, (forall x, mk x = Ok tt \/ mk x = Err FileExistsError) -> d <> [] -> at_path (comps path) d = Some (JDict s) ->
  (forall r, dget file s = Some (JStr r) -> r <> [] -> get_dest_path mk dest path file (JDict d) descent = Ok (relocated r descent)) /\
  (dget file s = Some (JStr []) -> get_dest_path mk dest path file (JDict d) descent = Ok (path, file)) /\
  (forall q, dget file s = None -> dget STAR s = Some (JStr q) -> file <> [] ->
     get_dest_path mk dest path file (JDict d) descent = Ok (relocated (path_join q file) descent)) /\
  (dget file s = None -> dget STAR s = None -> get_dest_path mk dest path file (JDict d) descent = Ok (path, file)).
Proof.
  intros mk dest path file d descent s Hmk Hd H. split; [|split; [|split]].
  - intros r Hr Hne. apply gdp_string; try assumption. eapply gfi_found; eassumption.
  - intros Hr. eapply gdp_falsy; [|eapply gfi_found; eassumption]. reflexivity.
  - intros q Hr Hs Hne. apply gdp_string; try assumption; [|eapply gfi_star; eassumption].
    unfold path_join. destruct (starts [slash] file); [exact Hne|]. destruct q as [|c q]; [exact Hne|]. cbn [orb].
    destruct (ends [slash] (c :: q)); discriminate.
  - intros Hr Hs. apply gdp_key. eapply gfi_none; eassumption.
Qed.
Print Assumptions C29_lookup.
Theorem C29_no_entry : forall mk dest path file d descent,
  get_dest_path mk dest path file (JDict []) descent = Ok (path, file) /\
  (forall p1 k p2 s, comps path = p1 ++ k :: p2 -> at_path p1 d = Some (JDict s) -> dget k s = None ->
     get_dest_path mk dest path file (JDict d) descent = Ok (path, file)) /\
  (forall p1 p2 v, comps path = p1 ++ p2 -> at_path p1 d = Some v -> (forall s, v <> JDict s) ->
     get_dest_path mk dest path file (JDict d) descent = Err ExtExc).
Proof.
  intros mk dest path file d descent. split; [reflexivity|]. split.
  - intros p1 k p2 s Hp Ha Hk. apply gdp_key. eapply gfi_missing; eassumption.
  - intros p1 p2 v Hp Ha Hl. apply gdp_ext; [|eapply gfi_level; eassumption].
    intros ->. destruct p1; [injection Ha as <-; exact (Hl [] eq_refl)|discriminate].
Qed.
Print Assumptions C29_no_entry.
(** the path is not normalized: with a trailing slash the entry is missed *)
Theorem C29_not_normalized_refuted : forall mk dest a file d descent s r, (forall x, mk x = Ok tt \/ mk x = Err FileExistsError) -> plain_name a ->
  dget a d = Some (JDict s) -> dget file s = Some (JStr r) -> r <> [] -> dget [] s = None ->
  get_dest_path mk dest a file (JDict d) descent = Ok (relocated r descent) /\
  get_dest_path mk dest (a ++ [slash]) file (JDict d) descent = Ok (a ++ [slash], file).
Proof.
  intros mk dest a file d descent s r Hmk (Hne & Hns & _) Ha Hr Hrn Hs. split.
  - apply (C29_lookup mk dest a file d descent s Hmk); try assumption; [intros ->; discriminate|].
    unfold comps. destruct a as [|c a]; [congruence|]. rewrite split_ch_nosep by exact Hns. cbn [at_path]. rewrite Ha. reflexivity.
  - eapply (proj1 (proj2 (C29_no_entry mk dest (a ++ [slash]) file d descent))) with (p1 := [a]) (k := []) (p2 := []); [|cbn [at_path]; rewrite Ha; reflexivity|exact Hs].
    unfold comps. destruct a as [|c a]; [congruence|]. change ((c :: a) ++ [slash]) with ((c :: a) ++ slash :: []). rewrite split_ch_app.
    cbn [app]. rewrite split_ch_nosep by exact Hns. reflexivity.
Qed.
Print Assumptions C29_not_normalized_refuted.

(** C46: a file found in the source tree and entered by update_index with destination [root] is
    afterwards looked up by get_dest_path at ../<root>/<its folder> (../../<root> with a version) *)
Theorem C46_index_roundtrip : forall mk dest t d root d' p e descent, (forall x, mk x = Ok tt \/ mk x = Err FileExistsError) -> tidy t -> fits t d ->
  root <> [] -> ends [slash] root = false -> is_abs root = false ->
  update_index t (Some (JDict d)) root = Ok (JDict d') ->
  file_at t p e -> at_path (p ++ [e]) d = None -> Forall plain_name (p ++ [e]) ->
  get_dest_path mk dest (join [slash] p) e (JDict d') descent =
    Ok (join [slash] (dot2 :: (match descent with None => [] | Some _ => [dot2] end) ++ root :: p), e).
Proof.
  intros mk dest t d root d' p e descent Hmk Ht Hf Hr He Ha H Hfile Hd Hp.
  pose proof (C28_new_location t d root d' p e Ht Hf H Hfile Hd Hp) as Hl.
  destruct root as [|c root0] eqn:Er; [congruence|]. rewrite <- Er in *.
  destruct (at_path_snoc _ _ _ Hl) as (s & Hs & Hg). apply Forall_app in Hp as Hp'. destruct Hp' as [Hp1 _].
  rewrite <- (@relocated_under root p e descent Hr He Ha Hp).
  apply (C29_lookup mk dest (join [slash] p) e d' descent s Hmk); [intros ->; destruct p; discriminate|rewrite comps_join by exact Hp1; exact Hs|exact Hg|].
  unfold under. rewrite Er. discriminate.
Qed.
Print Assumptions C46_index_roundtrip.
(** without a destination folder the entries are empty and nothing is moved *)
Theorem C46_index_empty_destination : forall mk dest t d d' p e descent, (forall x, mk x = Ok tt \/ mk x = Err FileExistsError) -> tidy t -> fits t d ->
  update_index t (Some (JDict d)) [] = Ok (JDict d') ->
  file_at t p e -> at_path (p ++ [e]) d = None -> Forall plain_name (p ++ [e]) ->
  get_dest_path mk dest (join [slash] p) e (JDict d') descent = Ok (join [slash] p, e).
Proof.
  intros mk dest t d d' p e descent Hmk Ht Hf H Hfile Hd Hp.
  pose proof (C28_new_location t d [] d' p e Ht Hf H Hfile Hd Hp) as Hl.
  destruct (at_path_snoc _ _ _ Hl) as (s & Hs & Hg). apply Forall_app in Hp as Hp'. destruct Hp' as [Hp1 _].
  eapply (fun A B => proj1 (proj2 (C29_lookup mk dest (join [slash] p) e d' descent s Hmk A B))); [intros ->; destruct p; discriminate|rewrite comps_join by exact Hp1; exact Hs|exact Hg].
Qed.
Print Assumptions C46_index_empty_destination.

(** ** Concrete cases *)
Definition ix1 : jdict := [(u "Forms", JDict [(u "a.bsl", JStr (u "core/a.bsl")); (u "n", JNull); (u "l", JList [JNum 1])])].
Definition ix2 : jdict := [(u "Forms", JDict [(u "b.bsl", JStr (u "core/b.bsl")); (u "n", JDict []); (u "l", JList [JNum 2])]); (u "x", JStr [])].
Example merge_example : update_dict [ix1; ix2] = Ok
  [(u "Forms", JDict [(u "a.bsl", JStr (u "core/a.bsl")); (u "n", JDict []); (u "l", JList [JNum 1; JNum 2]); (u "b.bsl", JStr (u "core/b.bsl"))]); (u "x", JStr [])].
Proof. vm_compute. reflexivity. Qed.
Lemma proper_b (d : jdict) : (fix ok (j : json) : bool := match j with JDict d => (fix nd (l : list (list N * json)) : bool := match l with [] => true | (k, v) :: r => negb (existsb (str_eqb k) (map fst r)) && ok v && nd r end) d | _ => true end) (JDict d) = true -> proper (JDict d).
Proof.
  set (ok := fix ok (j : json) : bool := match j with JDict d => (fix nd (l : list (list N * json)) : bool := match l with [] => true | (k, v) :: r => negb (existsb (str_eqb k) (map fst r)) && ok v && nd r end) d | _ => true end).
  intros H. change (ok (JDict d) = true) in H. revert H. generalize (JDict d). intros j. induction j as [| | | | |l IH] using json_ind2. 1-5: intros _; constructor.
  intros H. cbn in H. fold ok in H. assert (G : NoDup (map fst l) /\ forall k v, In (k, v) l -> proper v); [|constructor; apply G].
  induction l as [|[k v] l IHl]; [split; [constructor|intros k v []]|]. inversion IH; subst. apply andb_true_iff in H. destruct H as [H Hx3].
  apply andb_true_iff in H. destruct H as [Hx1 Hx2]. destruct (IHl ltac:(assumption) Hx3) as [G1 G2]. split.
  - cbn. constructor; [|exact G1]. intros Hin. apply negb_true_iff in Hx1. assert (existsb (str_eqb k) (map fst l) = true); [|congruence].
    apply existsb_exists. exists k. split; [exact Hin|apply str_eqb_refl].
  - intros k' v' [E|Hin]; [injection E as <- <-; auto|eapply G2; exact Hin].
Qed.
Example ix_proper : proper (JDict ix1) /\ proper (JDict ix2).
Proof. split; apply proper_b; vm_compute; reflexivity. Qed.
Definition tree1 : node := Dir [(u "Forms", Dir [(u "a.1.bsl", File); (u "a.bsl", File)]); (u "obj.json", File)].
Lemma short_unversioned n : (dots n <? 2)%nat = true -> unversioned n.
Proof. intros H. left. apply Nat.ltb_lt. exact H. Qed.
Example tree1_tidy : tidy tree1 /\ fits tree1 ix1.
Proof.
  assert (Hb : base_name (u "a.1.bsl") (u "a.bsl")).
  { right. exists (mkname (u "a") (u "bsl")), 1. split; [|split; [vm_compute; reflexivity|reflexivity]].
    intros H. vm_compute in H. intuition discriminate. }
  split.
  - constructor.
    + apply nodup_strs. vm_compute. reflexivity.
    + intros n [E|[E|[]]]; [discriminate|]. injection E as <-. exists (u "obj.json"). split; [left; split; [reflexivity|apply short_unversioned; reflexivity]|].
      intros es' [E|[E|[]]]; discriminate.
    + intros n es' [E|[E|[]]]; [|discriminate]. injection E as <- <-. split; [apply short_unversioned; reflexivity|]. constructor.
      * apply nodup_strs. vm_compute. reflexivity.
      * intros n [E|[E|[]]]; injection E as <-; exists (u "a.bsl"); (split; [|intros es' [E|[E|[]]]; discriminate]);
          [exact Hb|left; split; [reflexivity|apply short_unversioned; reflexivity]].
      * intros n es' [E|[E|[]]]; discriminate.
  - constructor. intros n es' [E|[E|[]]]; [|discriminate]. injection E as <- <-. right. eexists. split; [reflexivity|].
    constructor. intros n es' [E|[E|[]]]; discriminate.
Qed.
Example update_example : update_index tree1 (Some (JDict [(u "x", JStr [])])) (u "core") =
  Ok (JDict [(u "x", JStr []); (u "Forms", JDict [(u "a.bsl", JStr (u "core/Forms/a.bsl"))]); (u "obj.json", JStr (u "core/obj.json"))]).
Proof. vm_compute. reflexivity. Qed.
Example lookup_example : get_dest_path (fun _ => Ok tt) (u "/out") (u "Forms") (u "a.bsl") (JDict ix1) (Some 5) = Ok (u "../../core", u "a.bsl").
Proof. vm_compute. reflexivity. Qed.
