(** The documents of a form and of its areas. *)
From Coq Require Import String Permutation Lia.
From Verif Require Import PyBase PyText JsonText UpdateDictProofs OrgForm OrgFormProofs Spec_OrgForm OrgFormMain.
Set Implicit Arguments.
Open Scope list_scope.
Open Scope N_scope.

Lemma fl_nil l : fl [] l = l.
Proof. unfold fl. induction l as [|[c v] l IH]; [reflexivity|]. cbn [map fst snd]. rewrite IH. reflexivity. Qed.
Lemma back_same data l root' q : taken [] data l root' -> put_in [] root' l q -> same_map data q.
Proof.
  intros (_ & _ & _ & H4 & H5) (_ & H) k. rewrite H, H5, fl_nil. destruct (dget k l) as [v|] eqn:E; [|reflexivity]. exact (H4 _ _ (dget_in _ _ E)).
Qed.
Lemma dset_fst V k (v : V) d : dget k d <> None -> map fst (dset k v d) = map fst d.
Proof. induction d as [|[x y] d IH]; cbn; [congruence|]. destruct (str_eqb k x) eqn:E; cbn; [reflexivity|]. intros H. rewrite IH by exact H. reflexivity. Qed.
Lemma dget_kept V k x (v : V) d : dget k d <> None -> dget k (dset x v d) <> None.
Proof. intros H. rewrite dget_dset. destruct (str_eqb k x); [discriminate|exact H]. Qed.
Lemma with_doc_same d tree data q : document d tree data -> same_map data q -> forall t r, same_document (Jobj d) (with_doc (dset k_data (Jobj r) (dset k_tree (Jlist t) d)) tree q).
Proof.
  intros [H1 H2] Hs t r. change fe_tree with k_tree in H1. change fe_data with k_data in H2. unfold with_doc.
  exists d, (dset k_data (Jobj q) (dset k_tree (Jlist tree) (dset k_data (Jobj r) (dset k_tree (Jlist t) d)))). split; [reflexivity|]. split; [reflexivity|].
  assert (N1 : dget k_tree d <> None) by (rewrite H1; discriminate). assert (N2 : dget k_data d <> None) by (rewrite H2; discriminate).
  split; [|split].
  - rewrite !dset_fst; first [reflexivity | repeat apply dget_kept; assumption].
  - intros k Hk. change fe_data with k_data in Hk. rewrite !dget_dset. destruct (str_eqb k k_data) eqn:E; [apply str_eqb_spec in E; contradiction|]. destruct (str_eqb k k_tree) eqn:E2; [|reflexivity]. apply str_eqb_spec in E2. subst. exact H1.
  - intros x Hx. change fe_data with k_data in *. rewrite H2 in Hx. injection Hx as <-. exists q. split; [apply dget_dset_same|exact Hs].
Qed.
Lemma doc_of_ok d tree data : document d tree data -> doc_of (Jobj d) = Ok (d, tree, data).
Proof. intros [H1 H2]. change fe_tree with k_tree in H1. change fe_data with k_data in H2. unfold doc_of. rewrite H1, H2. reflexivity. Qed.
Lemma doc_with d t r : document (dset k_data (Jobj r) (dset k_tree (Jlist t) d)) t r.
Proof. split; [change fe_tree with k_tree; rewrite dget_dset_other by discriminate|]; apply dget_dset_same. Qed.
Lemma wrap_ok A (r : res A) v : wrap_ext r = Ok v -> r = Ok v.
Proof. destruct r as [|[]]; cbn; congruence. Qed.

Lemma docs_back fuel d tree data places doc1 areas : document d tree data -> areas_at [] tree places -> NoDup (map fst data) -> no_nulls data -> Forall (no_pages data) places ->
  unpack_elems fuel (Jobj d) = Ok (doc1, areas) ->
  exists os root' tree', doc1 = with_doc d tree' root' /\ areas = collect os [] /\ Forall2 (occ_of data root') places os /\ (forall k v, dget k root' = Some v -> dget k data = Some v) /\
    (forall treew, writable_tree tree treew -> exists dw, unpack_elems fuel (Jobj (dset k_tree (Jlist treew) d)) = Ok (dw, collect (map to_written os) [])) /\
    forall read, Forall (holds_area read) os -> exists doc2, pack_elems fuel read doc1 = Ok doc2 /\ same_document (Jobj d) doc2 /\ exists t r q, doc2 = with_doc (dset k_data (Jobj r) (dset k_tree (Jlist t) d)) tree q /\ NoDup (map fst q) /\ same_map data q.
Proof.
  intros Hd Ha Hn Hnn Hp H. unfold unpack_elems in H. rewrite (doc_of_ok Hd) in H. cbn [bind] in H. apply bind_trip in H. destruct H as (tree' & root' & ar & H & E). injection E as <- <-. apply wrap_ok in H.
  destruct (@gets_back_all fuel _ _ _ _ _ _ _ _ Ha Hn Hnn Hp H) as (L & os & T & A & O & _ & W & B). exists os, root', tree'. split; [reflexivity|]. split; [exact A|]. split; [exact O|]. split; [|split].
  - intros k v Hk. destruct T as (_ & _ & _ & _ & T). rewrite T in Hk. destruct (dget k (fl [] L)); [discriminate|exact Hk].
  - intros treew Hw. destruct (W treew [] Hw) as (t2 & W2). unfold unpack_elems.
    assert (Hdw : document (dset k_tree (Jlist treew) d) treew data) by (destruct Hd as [D1 D2]; split; [apply dget_dset_same|change fe_data with k_data in *; rewrite dget_dset_other by discriminate; exact D2]).
    rewrite (doc_of_ok Hdw). cbn [bind]. rewrite W2. cbn [wrap_ext bind]. eexists. reflexivity.
  - intros read Hr. destruct (B read root' Hr) as (q & Q1 & Q2). unfold pack_elems, with_doc. rewrite (doc_of_ok (doc_with d tree' root')). cbn [wrap_ext bind]. rewrite Q1. cbn [wrap_ext bind]. eexists. split; [reflexivity|].
    split; [apply with_doc_same with (data := data); [exact Hd|]; exact (back_same T Q2)|]. eexists. eexists. exists q. split; [reflexivity|]. split; [|exact (back_same T Q2)]. apply Q2. apply T.
Qed.
Lemma with_distinct d t r tree q doc2 : doc2 = with_doc (dset k_data (Jobj r) (dset k_tree (Jlist t) d)) tree q -> NoDup (map fst q) -> distinct_data doc2.
Proof. intros -> Hn d2 x E Hx. injection E as <-. change fe_data with k_data in Hx. rewrite dget_dset_same in Hx. injection Hx as <-. exact Hn. Qed.

(** ** The dictionary of the areas *)
Lemma collect_keys os : forall areas, NoDup (map (fun o : occ => snd (fst o)) (filter (fun o : occ => fst (fst o)) os)) -> (forall o, In o os -> fst (fst o) = true -> ~ In (snd (fst o)) (map fst areas)) ->
  collect os areas = areas ++ map (fun o : occ => (snd (fst o), snd o)) (filter (fun o : occ => fst (fst o)) os).
Proof.
  induction os as [|[[w n] a] os IH]; intros areas Hn Hf; cbn [collect fold_left filter fst map]; [rewrite app_nil_r; reflexivity|]. destruct w; cbn [filter fst map snd] in *.
  - inversion Hn as [|? ? H1 H2]; subst. change (collect os (dset n a areas) = areas ++ (n, a) :: map (fun o : occ => (snd (fst o), snd o)) (filter (fun o : occ => fst (fst o)) os)). rewrite dset_last by (apply dget_not_in; exact (Hf _ (or_introl eq_refl) eq_refl)).
    rewrite IH; [rewrite <- app_assoc; reflexivity|exact H2|]. intros o Ho Hw Hi. rewrite map_app in Hi. apply in_app_or in Hi. destruct Hi as [Hi|[Hi|[]]]; [exact (Hf o (or_intror Ho) Hw Hi)|]. cbn [fst] in Hi. apply H1. apply in_map_iff. exists o. split; [symmetry; exact Hi|]. apply filter_In. split; assumption.
  - apply (IH areas Hn). intros o Ho. apply Hf. right. exact Ho.
Qed.
Lemma occs_names root root' places os : Forall2 (occ_of root root') places os ->
  map (fun o : occ => snd (fst o)) (filter (fun o : occ => fst (fst o)) os) = map p_name (filter p_written places) /\ map (fun o : occ => snd (fst o)) os = map p_name places.
Proof.
  intros H. induction H as [|pl [[w n] a] places os (A & B & _) _ (IH1 & IH2)]; [split; reflexivity|]. cbn [filter fst snd map]. rewrite A. split; [destruct w; cbn [map fst snd]; rewrite IH1, ?B; reflexivity|rewrite IH2, B; reflexivity].
Qed.
Lemma filter_nodup A B (f : A -> B) g l : NoDup (map f l) -> NoDup (map f (filter g l)).
Proof.
  induction l as [|x l IH]; intros H; [constructor|]. inversion H as [|? ? H1 H2]; subst. cbn [filter]. destruct (g x); [|apply IH; exact H2]. cbn [map]. constructor; [|apply IH; exact H2].
  intros Q. apply H1. apply in_map_iff in Q. destruct Q as (y & <- & Q). apply filter_In in Q. apply in_map_iff. exists y. split; [reflexivity|apply Q].
Qed.
Lemma collect_places root root' places os : Forall2 (occ_of root root') places os -> NoDup (map p_name places) ->
  collect os [] = map (fun o : occ => (snd (fst o), snd o)) (filter (fun o : occ => fst (fst o)) os).
Proof.
  intros H Hn. destruct (occs_names H) as [E _]. rewrite collect_keys; [reflexivity| |intros o _ _ []]. rewrite E. apply filter_nodup. exact Hn.
Qed.
Definition doc_files (doc : jval) (areas : list (list N * area)) : list (list N * jval) := dset w_root doc (map (fun na => (fst na, area_json (snd na))) areas).
Lemma files_map doc areas : ~ In w_root (map fst areas) -> doc_files doc areas = map (fun na => (fst na, area_json (snd na))) areas ++ [(w_root, doc)].
Proof. intros H. unfold doc_files. apply dset_last. apply dget_not_in. rewrite map_map. exact H. Qed.
Lemma area_of_same a j : same_document (area_json a) j -> distinct_data j -> exists b, area_of j = Ok b /\ a_tree b = a_tree a /\ NoDup (map fst (a_data b)) /\ same_map (a_data b) (a_data a).
Proof.
  intros (da & db & Ea & -> & _ & H2 & H3) Hd. unfold area_json in Ea. injection Ea as <-. specialize (H2 fe_tree ltac:(discriminate)). cbn in H2.
  change (Some (a_tree a) = dget k_tree db) in H2. destruct (H3 (a_data a) eq_refl) as (y & Ey & Hy). change fe_data with k_data in Ey. exists (mkarea y (a_tree a)). unfold area_of. rewrite <- H2, Ey. split; [reflexivity|]. split; [reflexivity|]. split; [exact (Hd db y eq_refl Ey)|].
  intros k. symmetry. apply Hy.
Qed.
Definition reads_files (files : list (list N * jval)) (read : list N -> res jval) : Prop :=
  forall n j, n <> fe_root -> In (n, j) files -> exists j', read n = Ok j' /\ same_document j j' /\ distinct_data j'.
Lemma reads_occs doc areas read os : (forall w n a, In (w, n, a) os -> In (n, a) areas) -> ~ In w_root (map fst areas) -> reads_files (doc_files doc areas) read -> Forall (holds_area (fun n => j <- read n ;; area_of j)) os.
Proof.
  intros Hi Hr H. apply Forall_forall. intros [[w n] a] Ho. specialize (Hi _ _ _ Ho). assert (Hn : n <> fe_root) by (intros ->; apply Hr; apply in_map_iff; exists (fe_root, a); split; [reflexivity|exact Hi]).
  destruct (H n (area_json a) Hn) as (j' & E & Hs & Hdd). { rewrite files_map by exact Hr. apply in_or_app. left. apply in_map_iff. exists (n, a). split; [reflexivity|exact Hi]. }
  destruct (area_of_same Hs Hdd) as (b & Eb & Hb). exists b. rewrite E. cbn [bind]. split; [exact Eb|exact Hb].
Qed.

(** ** Forms without areas *)
Lemma no_areas_get fuel : forall tree p root areas r, areas_at p tree [] -> get_areas fuel tree p root areas = Ok r -> r = (tree, root, areas).
Proof.
  induction fuel as [|fuel IH]; [discriminate|]. intros tree p root areas r Ha. rewrite get_areas_S. remember (@nil place) as pl eqn:Epl. revert r.
  induction Ha as [p0|p0 e rest w n pg c pl Hname Hpg Hlast _ IHr|p0 e rest n pg pl Hname Hpl Hpg Hch _ IHr|p0 e rest n pg c0 c l1 l2 Hname Hpl Hpg Hch Hin _ _ IHr]; intros r H; cbn [get_go] in H.
  - injection H as <-. reflexivity.
  - discriminate.
  - subst pl. cbn [fields bind] in H. rewrite (name_ok _ Hname) in H. cbn [bind] in H. rewrite (page_ok _ _ Hpg) in H. cbn [bind] in H. rewrite (plain_not_area Hpl) in H. change fe_child with k_child in Hch. replace (items (dget k_child e)) with (@Ok (list jval) []) in H by (destruct Hch as [-> | ->]; reflexivity).
    cbn [bind] in H. apply bind_trip in H. destruct H as (rest' & r2 & a2 & H2 & E2). injection E2 as <-. specialize (IHr eq_refl IH _ H2). injection IHr as -> -> ->. reflexivity.
  - apply app_eq_nil in Epl. destruct Epl as [-> ->]. cbn [fields bind] in H. rewrite (name_ok _ Hname) in H. cbn [bind] in H. rewrite (page_ok _ _ Hpg) in H. cbn [bind] in H. rewrite (plain_not_area Hpl) in H. change fe_child with k_child in Hch. rewrite Hch in H. cbn [items bind] in H. rewrite under_old in Hin.
    apply bind_trip in H. destruct H as (j' & r1 & a1 & H1 & H). apply bind_trip in H1. destruct H1 as (c' & r1' & a1' & H1 & E1). injection E1 as <- <- <-. apply IH in H1; [|exact Hin]. injection H1 as -> -> ->.
    apply bind_trip in H. destruct H as (rest' & r2 & a2 & H2 & E2). injection E2 as <-. specialize (IHr eq_refl IH _ H2). injection IHr as -> -> ->. rewrite (@dset_same _ _ _ _ Hch). reflexivity.
Qed.
Lemma no_areas_put fuel read : forall tree p root r, areas_at p tree [] -> put_areas fuel read tree p root = Ok r -> r = (tree, root).
Proof.
  induction fuel as [|fuel IH]; [discriminate|]. intros tree p root r Ha. rewrite put_areas_S. remember (@nil place) as pl eqn:Epl. revert r.
  induction Ha as [p0|p0 e rest w n pg c pl Hname Hpg Hlast _ IHr|p0 e rest n pg pl Hname Hpl Hpg Hch _ IHr|p0 e rest n pg c0 c l1 l2 Hname Hpl Hpg Hch Hin _ _ IHr]; intros r H; cbn [putx_go] in H.
  - injection H as <-. reflexivity.
  - discriminate.
  - subst pl. cbn [fields bind] in H. rewrite (name_ok _ Hname) in H. cbn [bind] in H. rewrite (page_ok _ _ Hpg) in H. cbn [bind] in H. rewrite (plain_not_area Hpl) in H. change fe_child with k_child in Hch. replace (items (dget k_child e)) with (@Ok (list jval) []) in H by (destruct Hch as [-> | ->]; reflexivity).
    cbn [bind] in H. apply bind_pair in H. destruct H as (rest' & r2 & H2 & E2). injection E2 as <-. specialize (IHr eq_refl IH _ H2). injection IHr as -> ->. reflexivity.
  - apply app_eq_nil in Epl. destruct Epl as [-> ->]. cbn [fields bind] in H. rewrite (name_ok _ Hname) in H. cbn [bind] in H. rewrite (page_ok _ _ Hpg) in H. cbn [bind] in H. rewrite (plain_not_area Hpl) in H. change fe_child with k_child in Hch. rewrite Hch in H. cbn [items bind] in H. rewrite under_old in Hin.
    apply bind_pair in H. destruct H as (j' & r1 & H1 & H). apply bind_pair in H1. destruct H1 as (c' & r1' & H1 & E1). injection E1 as <- <-. apply IH in H1; [|exact Hin]. injection H1 as -> ->.
    apply bind_pair in H. destruct H as (rest' & r2 & H2 & E2). injection E2 as <-. specialize (IHr eq_refl IH _ H2). injection IHr as -> ->. rewrite (@dset_same _ _ _ _ Hch). reflexivity.
Qed.
Lemma with_same d tree data : document d tree data -> with_doc d tree data = Jobj d.
Proof. intros [H1 H2]. change fe_tree with k_tree in H1. change fe_data with k_data in H2. unfold with_doc. rewrite (@dset_same _ _ _ _ H1), (@dset_same _ _ _ _ H2). reflexivity. Qed.

(** ** The elements that stay *)
Lemma get_kept fuel : forall tree p pl root areas tree' root' areas', areas_at p tree pl -> get_areas fuel tree p root areas = Ok (tree', root', areas') -> kept_tree tree tree'.
Proof.
  induction fuel as [|fuel IH]; [discriminate|]. intros tree p pl root areas tree' root' areas' Ha. rewrite get_areas_S. revert root areas tree' root' areas'.
  induction Ha as [p0|p0 e rest w n pg c pl Hname Hpg Hlast _ IHr|p0 e rest n pg pl Hname Hpl Hpg Hch _ IHr|p0 e rest n pg c0 c l1 l2 Hname Hpl Hpg Hch Hin _ _ IHr]; intros root areas tree' root' areas' H; cbn [get_go] in H.
  - injection H as <- <- <-. constructor.
  - destruct Hlast as (e0 & -> & Hno). cbn [fields bind] in H. rewrite (name_ok _ Hname) in H. cbn [bind] in H. rewrite (page_ok _ _ Hpg) in H. cbn [bind] in H. rewrite is_area_prefix in H. change fe_child with k_child in *. rewrite (@ddel_last _ _ _ _ Hno), (@dset_last _ _ _ _ Hno) in H. cbv zeta in H.
    destruct (items _) as [l|]; [|discriminate]. cbn [bind] in H. apply bind_trip in H. destruct H as (j' & r1 & a1 & H1 & H). apply bind_pair in H1. destruct H1 as (r1' & data' & _ & E1). injection E1 as <- <- <-.
    apply bind_trip in H. destruct H as (rest' & r2 & a2 & H2 & E2). injection E2 as <- <- <-. apply kt_area with (w := w) (n := n); [exact Hname|]. exact (IHr _ _ _ _ _ H2).
  - cbn [fields bind] in H. rewrite (name_ok _ Hname) in H. cbn [bind] in H. rewrite (page_ok _ _ Hpg) in H. cbn [bind] in H. rewrite (plain_not_area Hpl) in H. pose proof Hch as Hch'. change fe_child with k_child in Hch'. replace (items (dget k_child e)) with (@Ok (list jval) []) in H by (destruct Hch' as [-> | ->]; reflexivity).
    cbn [bind] in H. apply bind_trip in H. destruct H as (rest' & r2 & a2 & H2 & E2). injection E2 as <- <- <-. eapply kt_leaf; [exact Hname|exact Hpl|exact Hch|exact (IHr _ _ _ _ _ H2)].
  - cbn [fields bind] in H. rewrite (name_ok _ Hname) in H. cbn [bind] in H. rewrite (page_ok _ _ Hpg) in H. cbn [bind] in H. rewrite (plain_not_area Hpl) in H. pose proof Hch as Hch'. change fe_child with k_child in Hch'. rewrite Hch' in H. cbn [items bind] in H. rewrite under_old in Hin.
    apply bind_trip in H. destruct H as (j' & r1 & a1 & H1 & H). apply bind_trip in H1. destruct H1 as (c' & r1' & a1' & H1 & E1). injection E1 as <- <- <-. apply bind_trip in H. destruct H as (rest' & r2 & a2 & H2 & E2). injection E2 as <- <- <-.
    eapply kt_group; [exact Hname|exact Hpl|exact Hch|exact (IH _ _ _ _ _ _ _ _ Hin H1)|exact (IHr _ _ _ _ _ H2)].
Qed.
Lemma docs_kept fuel d tree data places doc1 areas : document d tree data -> areas_at [] tree places -> unpack_elems fuel (Jobj d) = Ok (doc1, areas) ->
  exists tree' root', doc1 = with_doc d tree' root' /\ kept_tree tree tree'.
Proof.
  intros Hd Ha H. unfold unpack_elems in H. rewrite (doc_of_ok Hd) in H. cbn [bind] in H. apply bind_trip in H. destruct H as (tree' & root' & ar & H & E). injection E as <- <-. apply wrap_ok in H.
  exists tree', root'. split; [reflexivity|]. exact (@get_kept _ _ _ _ _ _ _ _ _ Ha H).
Qed.
